(** C18 - C26: the authorization redirect and the parsing of requests. *)
From Verif.Model Require Import Server.
From Verif.Spec Require Import ScopeSpec WireSpec RequestSpec ServerSpec Cases.
From Verif.Proof Require Import RequestProofs RequestParse EndpointProofs.

(** C18. A redirect goes to the registered redirect URI, which is the one in
    the request, with parameters added (see C16 and C17 for [redirect_location]). *)
Theorem C18_no_open_redirect : forall ev s r s' w loc locs,
  serve_http ev s r new_rw = (s', Some w) -> header_values w "Location" = loc :: locs ->
  locs = [] /\ status w = 303%Z /\ endpoint r "authorize" /\
  exists c params,
    sv_clients s !! form_param r "client_id" = Some c /\
    query_unescape (form_param r "redirect_uri") = Some (en_redirect_uri c) /\
    redirect_location (en_redirect_uri c) params (String.eqb (form_param r "response_type") "token") = Some loc.
Proof. exact c18_redirect_at. Qed.
Print Assumptions C18_no_open_redirect.

(** Scheme, user, host and path of the Location are the registered ones. *)
Theorem C18_redirect_target : forall ev s r s' w loc locs,
  serve_http ev s r new_rw = (s', Some w) -> header_values w "Location" = loc :: locs ->
  exists c, sv_clients s !! form_param r "client_id" = Some c /\
  (ascii_text (en_redirect_uri c) -> without "#" (en_redirect_uri c) -> en_redirect_uri c <> "*" ->
   exists u u', parse_request_uri (en_redirect_uri c) = Some u /\
     parse_request_uri (before_fragment loc) = Some u' /\ same_target u u').
Proof. exact c18_target. Qed.
Print Assumptions C18_redirect_target.

Theorem C18_refused : forall ev s r,
  endpoint r "authorize" ->
  (forall c, sv_clients s !! form_param r "client_id" = Some c ->
     query_unescape (form_param r "redirect_uri") <> Some (en_redirect_uri c)) ->
  exists w, serve_http ev s r new_rw = (s, Some w) /\
    (error_document w 400 "invalid_request" \/ error_document w 401 "invalid_client").
Proof. exact c18_refused_at. Qed.
Print Assumptions C18_refused.

Example C18_case :
  (exists s' w, serve_http (case_env 5 rand1) case_server (authorize_request "code" "xyz" "u1" "p1") new_rw = (s', Some w) /\
    header_values w "Location" =
      ["https://a.example/cb?code=MDEyMzQ1Njc4OWFiY2RlZg.Zd4OsDV4iQX4rpOVdXH8f5QUe6crlFwq_jsBZ2aAu5I&state=xyz"]) /\
  (let r := post_to "/authorize" "" [("response_type", "code"); ("client_id", "c1");
              ("redirect_uri", "https://evil.example/cb"); ("username", "u1"); ("password", "p1")] in
   forall c, sv_clients case_server !! form_param r "client_id" = Some c ->
     query_unescape (form_param r "redirect_uri") <> Some (en_redirect_uri c)).
Proof.
  split; [eexists _, _; split; vm_compute; reflexivity|]. cbv zeta. intros c Hc.
  vm_compute in Hc. injection Hc as <-. vm_compute. discriminate.
Qed.

(** C19. The state in the query of the Location, besides what the registered
    URI itself has. *)
Theorem C19_state_in_query : forall ev s r s' w loc locs,
  serve_http ev s r new_rw = (s', Some w) -> header_values w "Location" = loc :: locs ->
  form_param r "response_type" <> "token" ->
  exists uri, query_unescape (form_param r "redirect_uri") = Some uri /\
  (ascii_text uri -> without "#" uri -> uri <> "*" ->
   exists u u', parse_request_uri uri = Some u /\ parse_request_uri loc = Some u' /\ without "#" loc /\
     values_of (url_query u') "state" = (values_of (url_query u) "state" ++ echo (form_param r "state"))%list).
Proof. exact c19_query. Qed.
Print Assumptions C19_state_in_query.

(** In the fragment. Missing: states with other characters than letters,
    digits, "-._~" and blanks, which arrive percent-encoded; the second theorem
    says exactly how. *)
Theorem C19_state_in_fragment_partial : forall ev s r s' w loc locs,
  serve_http ev s r new_rw = (s', Some w) -> header_values w "Location" = loc :: locs ->
  form_param r "response_type" = "token" -> plain_text (form_param r "state") ->
  exists uri, query_unescape (form_param r "redirect_uri") = Some uri /\
  (without "#" uri ->
   exists v, parse_query (fragment_of loc) = (v, true) /\
     values_of v "state" = echo (form_param r "state")).
Proof. exact c19_fragment_plain. Qed.
Print Assumptions C19_state_in_fragment_partial.

Theorem C19_state_in_fragment_exact : forall ev s r s' w loc locs,
  serve_http ev s r new_rw = (s', Some w) -> header_values w "Location" = loc :: locs ->
  form_param r "response_type" = "token" ->
  exists uri, query_unescape (form_param r "redirect_uri") = Some uri /\
  (without "#" uri ->
   exists v, parse_query (fragment_of loc) = (v, true) /\
     values_of v "state" = map percent_encoded (echo (form_param r "state"))).
Proof. exact c19_fragment. Qed.
Print Assumptions C19_state_in_fragment_exact.

Theorem C19_state_refuted : exists ev s r s' w loc v,
  serve_http ev s r new_rw = (s', Some w) /\ header_values w "Location" = [loc] /\
  form_param r "response_type" = "token" /\ form_param r "state" = "a&b" /\
  loc = "https://a.example/cb#error=access_denied&state=a%2526b" /\
  parse_query (fragment_of loc) = (v, true) /\ values_of v "state" = ["a%26b"].
Proof. exact c19_refuted. Qed.
Print Assumptions C19_state_refuted.

Example C19_case :
  exists s' w, serve_http (case_env 5 rand1) case_server (authorize_request "code" "a&b" "u1" "no") new_rw = (s', Some w) /\
    header_values w "Location" = ["https://a.example/cb?error=access_denied&state=a%26b"] /\
  exists s' w, serve_http (case_env 5 rand1) case_server (authorize_request "token" "a b" "u1" "no") new_rw = (s', Some w) /\
    header_values w "Location" = ["https://a.example/cb#error=access_denied&state=a+b"].
Proof. eexists _, _. split; [vm_compute; reflexivity|]. split; [vm_compute; reflexivity|]. eexists _, _. split; vm_compute; reflexivity. Qed.

(** C20. *)
Theorem C20_parsers_ignore_query : forall r1 r2, same_but_url_query r1 r2 ->
  well_formed_query (rq_query r1) -> well_formed_query (rq_query r2) ->
  parse_token_request r1 = parse_token_request r2 /\
  parse_introspection_request r1 = parse_introspection_request r2 /\
  parse_revocation_request r1 = parse_revocation_request r2.
Proof. exact c20_parsers. Qed.
Print Assumptions C20_parsers_ignore_query.

Theorem C20_endpoints_ignore_query : forall ev s r1 r2 w, same_but_url_query r1 r2 ->
  well_formed_query (rq_query r1) -> well_formed_query (rq_query r2) ->
  ~ endpoint r1 "authorize" ->
  serve_http ev s r1 w = serve_http ev s r2 w.
Proof. exact c20_endpoints_at. Qed.
Print Assumptions C20_endpoints_ignore_query.

Example C20_case : well_formed_query "client_id=c1&client_secret=s1&grant_type=password&username=u1&password=p1" /\
  exists e, parse_token_request
    {| rq_method := "POST"; rq_path := "/token";
       rq_query := "client_id=c1&client_secret=s1&grant_type=password&username=u1&password=p1";
       rq_auth := ""; rq_ctype := "application/x-www-form-urlencoded"; rq_body := Some ("", true);
       rq_preset := None |} = inr e.
Proof. split; eexists; vm_compute; reflexivity. Qed.

(** C21. A GET of the authorization endpoint. *)
Theorem C21_get_has_no_effect : forall ev s r, rq_method r = "GET" -> endpoint r "authorize" ->
  exists w, serve_http ev s r new_rw = (s, Some w) /\ header_values w "Location" = [] /\
    ((status w = 200%Z /\ fixed_body (rw_body w)) \/ exists code name, error_document w code name).
Proof. exact c21_get_at. Qed.
Print Assumptions C21_get_has_no_effect.

(** Something is issued or changed only for the credentials in the body. *)
Theorem C21_credentials_in_body : forall ev s r s' o, handle ev s r = Done s' o ->
  endpoint r "authorize" ->
  s' <> s \/ (exists t, o = OToken t) \/ (exists c, o = OCode c) ->
  rq_method r = "POST" /\
  exists u, sv_users s !! body_param r "username" = Some u /\ en_secret u = body_param r "password".
Proof. exact c21_credentials_at. Qed.
Print Assumptions C21_credentials_in_body.

(** A parameter of the body does not depend on the URL and is the one encoded
    in the body. *)
Theorem C21_body_param_not_query : forall r1 r2 k, same_but_url_query r1 r2 ->
  well_formed_query (rq_query r1) -> well_formed_query (rq_query r2) ->
  body_param r1 k = body_param r2 k.
Proof. exact c21_body. Qed.
Print Assumptions C21_body_param_not_query.

Theorem C21_body_param_value : forall r k b, rq_method r = "POST" -> rq_preset r = None ->
  rq_body r = Some (b, true) -> fits_form_limit r ->
  rq_ctype r = "application/x-www-form-urlencoded" ->
  well_formed_query b -> well_formed_query (rq_query r) ->
  body_param r k = vget (fst (parse_query b)) k.
Proof. exact c21_body_value. Qed.
Print Assumptions C21_body_param_value.

(** Of the URL query only the five authorization parameters matter. *)
Theorem C21_other_query_irrelevant : forall ev s r1 r2 w, same_but_url_query r1 r2 ->
  well_formed_query (rq_query r1) -> well_formed_query (rq_query r2) ->
  (forall k, In k ["response_type"; "scope"; "client_id"; "redirect_uri"; "state"] ->
     form_param r1 k = form_param r2 k) ->
  serve_http ev s r1 w = serve_http ev s r2 w.
Proof. exact c21_irrelevant_query. Qed.
Print Assumptions C21_other_query_irrelevant.

Definition full_query : string :=
  "response_type=token&client_id=c1&redirect_uri=https%3A%2F%2Fa.example%2Fcb&username=u1&password=p1".
Example C21_case :
  (exists w, serve_http (case_env 5 rand1) case_server (case_get "/authorize" full_query) new_rw = (case_server, Some w) /\
    status w = 200%Z) /\
  (exists e, handle (case_env 5 rand1) case_server
    {| rq_method := "POST"; rq_path := "/authorize"; rq_query := full_query; rq_auth := "";
       rq_ctype := "application/x-www-form-urlencoded"; rq_body := Some ("", true); rq_preset := None |}
    = Done case_server (OError e) /\ e_name e = "access_denied") /\
  (exists s' t, handle (case_env 5 rand1) case_server
    {| rq_method := "POST"; rq_path := "/authorize"; rq_query := full_query; rq_auth := "";
       rq_ctype := "application/x-www-form-urlencoded"; rq_body := Some ("username=u1&password=p1", true); rq_preset := None |}
    = Done s' (OToken t)).
Proof.
  split; [eexists; split; vm_compute; reflexivity|].
  split; [eexists; split; vm_compute; reflexivity|]. eexists _, _; vm_compute; reflexivity.
Qed.

(** C22. *)
Theorem C22_token_request_roundtrip : forall uri u q r,
  url_parse uri = Some u -> well_formed_query (u_rawquery u) ->
  tq_grant_type q <> "" -> tq_client_id q <> "" -> without ":" (tq_client_id q) ->
  Forall good_item (items (tq_scope q)) ->
  (tq_redirect_uri q = "" \/ is_Some (parse_request_uri (tq_redirect_uri q))) ->
  build_token_request uri q = Some r -> fits_form_limit r ->
  exists q', parse_token_request r = inl q' /\ same_token_request q q'.
Proof. exact c22_roundtrip. Qed.
Print Assumptions C22_token_request_roundtrip.

(** Why the client id must have no colon: the Basic scheme cuts at the first. *)
Theorem C22_colon : exists q r q', build_token_request "https://s.example/token" q = Some r /\
  tq_client_id q = "a:b" /\ parse_token_request r = inl q' /\ tq_client_id q' = "a".
Proof. exact c22_colon. Qed.
Print Assumptions C22_colon.

Example C22_case :
  let q := {| tq_grant_type := "authorization_code"; tq_scope := Some ["a"; "b+c"]; tq_client_id := "c1";
     tq_client_secret := "s:1"; tq_username := "u"; tq_password := "p&="; tq_refresh_token := "r";
     tq_redirect_uri := "https://a.example/cb?x=a%26b"; tq_code := "k" |} in
  exists u r, url_parse "https://s.example/token?v=1" = Some u /\ well_formed_query (u_rawquery u) /\
    build_token_request "https://s.example/token?v=1" q = Some r /\ fits_form_limit r /\
    parse_token_request r = inl q.
Proof.
  eexists _, _. split; [vm_compute; reflexivity|]. split; [eexists; vm_compute; reflexivity|].
  split; [vm_compute; reflexivity|]. split; [vm_compute; discriminate|]. vm_compute. reflexivity.
Qed.

(** C23. *)
Theorem C23_introspection_request_roundtrip : forall uri u q r,
  url_parse uri = Some u -> well_formed_query (u_rawquery u) ->
  lq_token q <> "" -> without ":" (lq_client_id q) -> (lq_client_id q <> "" \/ lq_client_secret q <> "") ->
  build_introspection_request uri q = Some r -> fits_form_limit r ->
  parse_introspection_request r = inl q.
Proof. exact c23_roundtrip. Qed.
Print Assumptions C23_introspection_request_roundtrip.

Theorem C23_revocation_request_roundtrip : forall uri u q r,
  url_parse uri = Some u -> well_formed_query (u_rawquery u) ->
  lq_token q <> "" -> without ":" (lq_client_id q) -> (lq_client_id q <> "" \/ lq_client_secret q <> "") ->
  build_revocation_request uri q = Some r -> fits_form_limit r ->
  parse_revocation_request r = inl q.
Proof. exact c23_revocation. Qed.
Print Assumptions C23_revocation_request_roundtrip.

Example C23_case :
  let q := {| lq_token := "a.b&c"; lq_token_type_hint := "access_token"; lq_client_id := "";
              lq_client_secret := "s:1" |} in
  exists u r, url_parse "http://s.example/introspect" = Some u /\ well_formed_query (u_rawquery u) /\
    build_introspection_request "http://s.example/introspect" q = Some r /\ fits_form_limit r.
Proof.
  eexists _, _. split; [vm_compute; reflexivity|]. split; [eexists; vm_compute; reflexivity|].
  split; [vm_compute; reflexivity|]. vm_compute. discriminate.
Qed.

(** C24. Missing: URIs with '%' or '+', for which the property is false
    (C24_redirect_uri_refuted), because the value is unescaped twice. *)
Theorem C24_authorization_redirect_uri_partial : forall path auth m u,
  fits_form_limit (form_post path auth m) ->
  m !! "redirect_uri" = Some u -> is_Some (parse_request_uri u) -> without "%" u -> without "+" u ->
  default "" (m !! "response_type") <> "" -> default "" (m !! "client_id") <> "" ->
  exists req, parse_authorization_request (form_post path auth m) = inl req /\ aq_redirect_uri req = u.
Proof. exact c24_authorization. Qed.
Print Assumptions C24_authorization_redirect_uri_partial.

Theorem C24_token_redirect_uri_partial : forall path id secret m u, id <> "" -> without ":" id ->
  fits_form_limit (form_post path (basic_auth_header id secret) m) ->
  m !! "redirect_uri" = Some u -> is_Some (parse_request_uri u) -> without "%" u -> without "+" u ->
  default "" (m !! "grant_type") <> "" ->
  exists req, parse_token_request (form_post path (basic_auth_header id secret) m) = inl req /\ tq_redirect_uri req = u.
Proof. exact c24_token. Qed.
Print Assumptions C24_token_redirect_uri_partial.

(** What arrives in general: the decoded parameter, decoded once more. *)
Theorem C24_redirect_uri_exact : forall r,
  (forall req, parse_authorization_request r = inl req ->
     query_unescape (form_param r "redirect_uri") = Some (aq_redirect_uri req)) /\
  (forall req, parse_token_request r = inl req ->
     query_unescape (body_param r "redirect_uri") = Some (tq_redirect_uri req)).
Proof. exact c24_exact. Qed.
Print Assumptions C24_redirect_uri_exact.

Theorem C24_redirect_uri_refuted : exists u m a t,
  u = "https://a.example/cb?x=a%26b" /\ is_Some (parse_request_uri u) /\ m !! "redirect_uri" = Some u /\
  parse_authorization_request (form_post "/authorize" "" m) = inl a /\
  aq_redirect_uri a = "https://a.example/cb?x=a&b" /\
  parse_token_request (form_post "/token" case_auth m) = inl t /\
  tq_redirect_uri t = "https://a.example/cb?x=a&b".
Proof. exact c24_refuted. Qed.
Print Assumptions C24_redirect_uri_refuted.

Example C24_case :
  let m := form_of [("redirect_uri", "https://a.example:8080/cb?x=1&y=~"); ("response_type", "code"); ("client_id", "c1")] in
  fits_form_limit (form_post "/authorize" "" m) /\ is_Some (parse_request_uri "https://a.example:8080/cb?x=1&y=~") /\
  exists req, parse_authorization_request (form_post "/authorize" "" m) = inl req /\
    aq_redirect_uri req = "https://a.example:8080/cb?x=1&y=~".
Proof.
  split; [vm_compute; discriminate|]. split; [eexists; vm_compute; reflexivity|].
  eexists. split; vm_compute; reflexivity.
Qed.

(** C25. Refused if the '#' follows the authority directly. Missing: all
    others, which are accepted (C25_fragment_refuted): ParseRequestURI does not
    recognise fragments and so the check never finds one. C25_fragment_exact
    says for every accepted redirect URI whether it is still accepted with a
    fragment appended. *)
Theorem C25_fragment_partial : forall r scheme authority rest,
  scheme_name scheme -> In "#"%char (list_ascii_of_string authority) ->
  without "/" authority -> without "?" authority ->
  (rest = "" \/ exists x, rest = String "/" x \/ rest = String "?" x) ->
  (query_unescape (form_param r "redirect_uri") = Some (scheme +:+ "://" +:+ authority +:+ rest) ->
   exists e, parse_authorization_request r = inr e /\ e_name e = "invalid_request") /\
  (query_unescape (body_param r "redirect_uri") = Some (scheme +:+ "://" +:+ authority +:+ rest) ->
   exists e, parse_token_request r = inr e /\ e_name e = "invalid_request").
Proof. exact c25_refused. Qed.
Print Assumptions C25_fragment_partial.

Theorem C25_fragment_exact : forall r r' base fragment, same_but_redirect r r' -> plain_fragment fragment ->
  (forall q, parse_authorization_request r = inl q -> aq_redirect_uri q = base ->
   query_unescape (form_param r' "redirect_uri") = Some (base +:+ "#" +:+ fragment) ->
   (exists q', parse_authorization_request r' = inl q' /\ aq_redirect_uri q' = base +:+ "#" +:+ fragment) <->
   base <> "*" /\ ~ bare_origin base) /\
  (forall q, parse_token_request r = inl q -> tq_redirect_uri q = base -> base <> "" ->
   query_unescape (body_param r' "redirect_uri") = Some (base +:+ "#" +:+ fragment) ->
   (exists q', parse_token_request r' = inl q' /\ tq_redirect_uri q' = base +:+ "#" +:+ fragment) <->
   base <> "*" /\ ~ bare_origin base).
Proof. exact c25_exact. Qed.
Print Assumptions C25_fragment_exact.

Example C25_exact_case :
  let m := form_of [("response_type", "code"); ("grant_type", "authorization_code"); ("client_id", "c1"); ("redirect_uri", "https://a.example/cb")] in
  let r := form_post "/authorize" "" m in
  let r' := form_post "/authorize" "" (<["redirect_uri" := "https://a.example/cb#top"]> m) in
  same_but_redirect r r' /\ plain_fragment "top" /\
  (exists q, parse_authorization_request r = inl q /\ aq_redirect_uri q = "https://a.example/cb") /\
  query_unescape (form_param r' "redirect_uri") = Some "https://a.example/cb#top" /\
  (exists q, parse_token_request r = inl q /\ tq_redirect_uri q = "https://a.example/cb") /\
  query_unescape (body_param r' "redirect_uri") = Some "https://a.example/cb#top".
Proof.
  cbv zeta. split.
  - apply form_post_redirect; [vm_compute; discriminate..|eexists; vm_compute; reflexivity].
  - split; [intros b [<-|[<-|[<-|[]]]]; (split; [vm_compute; discriminate|split; discriminate])|].
    split; [eexists; split; [vm_compute; reflexivity|reflexivity]|]. split; [vm_compute; reflexivity|].
    split; [eexists; split; [vm_compute; reflexivity|reflexivity]|]. vm_compute; reflexivity.
Qed.

Theorem C25_fragment_refuted : exists u m a t,
  u = "https://a.example/cb#frag" /\ m !! "redirect_uri" = Some u /\
  parse_authorization_request (form_post "/authorize" "" m) = inl a /\ aq_redirect_uri a = u /\
  parse_token_request (form_post "/token" case_auth m) = inl t /\ tq_redirect_uri t = u.
Proof. exact c25_refuted. Qed.
Print Assumptions C25_fragment_refuted.

Example C25_case :
  scheme_name "https" /\
  query_unescape (form_param (post_to "/authorize" "" [("redirect_uri", "https://a.example#x/y")]) "redirect_uri")
    = Some ("https" +:+ "://" +:+ "a.example#x" +:+ "/y").
Proof.
  split; [|vm_compute; reflexivity]. exists "h"%char, "ttps". split; [reflexivity|].
  split; [right; vm_compute; split; discriminate|].
  intros b Hb. left. right. cbn in Hb. repeat (destruct Hb as [<-|Hb]; [vm_compute; split; discriminate|]). destruct Hb.
Qed.

(** C26. *)
Theorem C26_basic_credentials : forall r scheme b id secret,
  rq_auth r = scheme +:+ " " +:+ b -> same_ignoring_case scheme "Basic" ->
  std_decode b = Some (id +:+ ":" +:+ secret) -> without ":" id ->
  (forall q, parse_token_request r = inl q -> tq_client_id q = id /\ tq_client_secret q = secret) /\
  (forall q, parse_introspection_request r = inl q -> lq_client_id q = id /\ lq_client_secret q = secret) /\
  (forall q, parse_revocation_request r = inl q -> lq_client_id q = id /\ lq_client_secret q = secret).
Proof. exact c26_basic. Qed.
Print Assumptions C26_basic_credentials.

Theorem C26_without_basic : forall r,
  (forall scheme b id secret, rq_auth r = scheme +:+ " " +:+ b ->
     same_ignoring_case scheme "Basic" -> without ":" id -> std_decode b <> Some (id +:+ ":" +:+ secret)) ->
  (forall q, parse_token_request r = inl q ->
     tq_client_id q = body_param r "client_id" /\ tq_client_secret q = body_param r "client_secret") /\
  (exists e, parse_introspection_request r = inr e /\ e_name e = "invalid_request" /\ e_status e = 400%Z) /\
  (exists e, parse_revocation_request r = inr e /\ e_name e = "invalid_request" /\ e_status e = 400%Z).
Proof. exact c26_body. Qed.
Print Assumptions C26_without_basic.

Example C26_case :
  let l := [("grant_type", "password"); ("client_id", "c2"); ("client_secret", "s2"); ("token", "t")] in
  (exists q, parse_token_request (post_to "/token" case_auth l) = inl q /\ tq_client_id q = "c1" /\ tq_client_secret q = "s1") /\
  (exists q, parse_token_request (post_to "/token" "Bearer x" l) = inl q /\ tq_client_id q = "c2" /\ tq_client_secret q = "s2") /\
  (exists q, parse_introspection_request (post_to "/introspect" case_auth l) = inl q /\ lq_client_id q = "c1").
Proof.
  split; [eexists; split; [vm_compute; reflexivity|split; reflexivity]|].
  split; [eexists; split; [vm_compute; reflexivity|split; reflexivity]|].
  eexists; split; [vm_compute; reflexivity|reflexivity].
Qed.
