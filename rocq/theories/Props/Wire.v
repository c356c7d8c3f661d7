(** C11 - C17: headers, error documents and redirects. *)
From Verif.Model Require Import Server.
From Verif.Spec Require Import ScopeSpec WireSpec BuilderSpec.
From Verif.Proof Require Import StrFacts UrlFacts WireFacts WireProofs ChallengeProofs BuilderProofs Redirect ServerFacts.

Definition request_with_auth (h : string) : request :=
  {| rq_method := "GET"; rq_path := "/"; rq_query := ""; rq_auth := h; rq_ctype := "";
     rq_body := None; rq_preset := None |}.

(** C11. A bearer token is accepted exactly if the header is the scheme in any
    case, one blank and the non-empty token. *)
Theorem C11_bearer_token_exact : forall r t,
  parse_bearer_token r = BToken t <->
  exists scheme, rq_auth r = scheme +:+ " " +:+ t /\ same_ignoring_case scheme "bearer" /\ t <> "".
Proof. exact c11_token. Qed.
Print Assumptions C11_bearer_token_exact.

(** No panic; 401 for a missing header, 400 for all others that are refused. *)
Theorem C11_bearer_errors : forall r,
  parse_bearer_token r <> BPanic /\
  (rq_auth r = "" <-> exists e, parse_bearer_token r = BErr e /\ e_status e = 401%Z) /\
  (forall e, parse_bearer_token r = BErr e ->
     (rq_auth r = "" /\ e = ProtectedResource) \/
     (rq_auth r <> "" /\ e_name e = "invalid_request" /\ e_status e = 400%Z)).
Proof. exact c11_errors. Qed.
Print Assumptions C11_bearer_errors.

Example C11_case :
  parse_bearer_token (request_with_auth "bEARer  x y") = BToken " x y" /\
  same_ignoring_case "bEARer" "bearer" /\
  parse_bearer_token (request_with_auth "Bearer ") = BErr malformed_header /\
  parse_bearer_token (request_with_auth "Basic abc") = BErr malformed_header.
Proof.
  split; [reflexivity|]. split; [|split; reflexivity].
  destruct (proj1 (C11_bearer_token_exact (request_with_auth "bEARer x") "x") eq_refl) as (sch & H & Hs & _).
  assert (sch = "bEARer") as ->; [|exact Hs].
  apply (app_inj_r _ _ (" " +:+ "x")). symmetry. exact H.
Qed.

(** C12. Neither the challenge, nor the Location, nor the response written for
    an error depends on the order of map iteration. *)
Theorem C12_challenge_order : forall e order,
  order ≡ₚ map_to_list (error_map e) -> params_order order = error_params e.
Proof. exact c12_params. Qed.
Print Assumptions C12_challenge_order.

Theorem C12_location_order : forall uri params order frag,
  order ≡ₚ map_to_list params ->
  redirect_location_order uri order frag = redirect_location uri params frag.
Proof. exact c12_location. Qed.
Print Assumptions C12_location_order.

Theorem C12_encode_order : forall v order,
  order ≡ₚ map fst (map_to_list v) -> encode_values_order order v = encode_values v.
Proof. exact encode_values_order_irrelevant. Qed.
Print Assumptions C12_encode_order.

Theorem C12_headers_order : forall w e order,
  distinct_headers e -> order ≡ₚ map_to_list (e_headers e) ->
  write_error_order w e order = write_error w (GErr e).
Proof. exact c12_headers. Qed.
Print Assumptions C12_headers_order.

Example C12_case :
  params_order [("scope", "b"); ("error", "a")] = params_order [("error", "a"); ("scope", "b")] /\
  params_order [("scope", "b"); ("error", "a")]
    = "error=" +:+ str1 dq_char +:+ "a" +:+ str1 dq_char +:+ ", scope=" +:+ str1 dq_char +:+ "b" +:+ str1 dq_char /\
  redirect_location_order "/cb" [("b", "2"); ("a", "1")] false = Some "/cb?a=1&b=2" /\
  redirect_location_order "/cb" [("a", "1"); ("b", "2")] false = Some "/cb?a=1&b=2".
Proof. vm_compute. repeat split; reflexivity. Qed.

(** C13. The challenge reads back as the parameters of the error if no value
    contains a double quote or backslash. Missing: all other values, for which
    the property is false (next theorem), since values are not escaped. *)
Theorem C13_challenge_readable_partial : forall e,
  valid_status (e_status e) -> e_status e <> 500%Z ->
  (forall k v, error_param e k v -> quotable v) ->
  exists w h header ps,
    write_bearer_error new_rw (GErr e) = Some (w, true) /\
    rw_sent w = Some (e_status e, h) /\ h !! "Www-Authenticate" = Some [header] /\
    read_challenge "Bearer" header = Some ps /\ NoDup (map fst ps) /\
    ((forall k v, ~ error_param e k v) -> ps = [("realm", "OAuth2")]) /\
    ((exists k v, error_param e k v) -> forall k v, In (k, v) ps <-> error_param e k v).
Proof. exact c13_partial. Qed.
Print Assumptions C13_challenge_readable_partial.

(** The limit of the property: a challenge that can be read and gives every
    parameter of the error once exists exactly if no value contains a double
    quote or a backslash. Each other error is written as a challenge that
    cannot be read or reads as something else. *)
Theorem C13_challenge_exact : forall e,
  valid_status (e_status e) -> e_status e <> 500%Z ->
  exists w h header,
    write_bearer_error new_rw (GErr e) = Some (w, true) /\
    rw_sent w = Some (e_status e, h) /\ h !! "Www-Authenticate" = Some [header] /\
    ((exists ps, read_challenge "Bearer" header = Some ps /\ NoDup (map fst ps) /\
        forall k v, error_param e k v -> In (k, v) ps) <->
     forall k v, error_param e k v -> quotable v).
Proof. exact c13_exact. Qed.
Print Assumptions C13_challenge_exact.

(** A required scope with a quote injects a parameter into the challenge. *)
Theorem C13_challenge_readable_refuted : exists e w h header ps,
  e = InsufficientScope c13_scope /\
  write_bearer_error new_rw (GErr e) = Some (w, true) /\
  rw_sent w = Some (e_status e, h) /\ h !! "Www-Authenticate" = Some [header] /\
  read_challenge "Bearer" header = Some ps /\
  In ("realm", "y") ps /\ (forall v, ~ error_param e "realm" v).
Proof. exact c13_refuted. Qed.
Print Assumptions C13_challenge_readable_refuted.

Example C13_case :
  (forall k v, error_param (InsufficientScope (Some ["foo"; "bar"])) k v -> quotable v) /\
  exists w h header,
    write_bearer_error new_rw (GErr (InsufficientScope (Some ["foo"; "bar"]))) = Some (w, true) /\
    rw_sent w = Some (403%Z, h) /\ h !! "Www-Authenticate" = Some [header] /\
    read_challenge "Bearer" header = Some [("error", "insufficient_scope"); ("scope", "foo bar")].
Proof.
  split.
  - intros k v H. unfold error_param in H. cbn in H.
    destruct H as [(_ & -> & _)|[(_ & -> & H)|[(_ & -> & H)|[(_ & -> & H)|[(_ & -> & H)|(_ & _ & ->)]]]]];
      try congruence; apply quotable_contains; split; reflexivity.
  - do 3 eexists. repeat split; vm_compute; reflexivity.
Qed.

(** C14. An error without redirect URI is written as a JSON document with its
    own status and headers; headers set before and not overwritten stay. *)
Theorem C14_error_document : forall w0 e, unsent w0 ->
  e_redirect_uri e = "" -> status_with_body (e_status e) -> error_fields_utf8 e -> distinct_headers e ->
  exists w h o,
    write_error w0 (GErr e) = Some (w, true) /\
    rw_sent w = Some (e_status e, h) /\
    (forall k l, h !! k = Some l <->
       document_header e k l \/ ((forall l', ~ document_header e k l') /\ rw_header w0 !! k = Some l)) /\
    json_parse (rw_body w) = Some (JObj o) /\ NoDup (map fst o) /\
    (forall k v, In (k, v) o <-> exists x, v = JStr x /\ error_member e k x).
Proof. exact c14_document. Qed.
Print Assumptions C14_error_document.

(** Any other error value becomes a 500 server_error document. *)
Theorem C14_other_error : forall w0, unsent w0 ->
  exists w h,
    write_error w0 GOther = Some (w, true) /\ rw_sent w = Some (500%Z, h) /\
    (forall k l, h !! k = Some l <->
       json_header k l \/ ((forall l', ~ json_header k l') /\ rw_header w0 !! k = Some l)) /\
    json_parse (rw_body w) = Some (JObj [("error", JStr "server_error")]).
Proof. exact c14_other. Qed.
Print Assumptions C14_other_error.

(** WriteError panics exactly for a status net/http refuses. *)
Theorem C14_panic : forall w0 e, unsent w0 -> e_redirect_uri e = "" ->
  write_error w0 (GErr e) = None <-> ~ valid_status (e_status e).
Proof. exact c14_panics. Qed.
Print Assumptions C14_panic.

Theorem C14_bearer_error : forall w0 e, unsent w0 -> valid_status (e_status e) -> e_status e <> 500%Z ->
  exists w h header,
    write_bearer_error w0 (GErr e) = Some (w, true) /\ rw_sent w = Some (e_status e, h) /\
    rw_body w = "" /\ h !! "Www-Authenticate" = Some [header] /\
    (forall k, k <> "Www-Authenticate" -> h !! k = rw_header w0 !! k) /\
    exists ps, header = "Bearer " +:+ ps /\ ps <> "" /\
      ((forall k v, ~ error_param e k v) -> ps = "realm=" +:+ str1 dq_char +:+ "OAuth2" +:+ str1 dq_char).
Proof. exact c14_bearer. Qed.
Print Assumptions C14_bearer_error.

Theorem C14_bearer_internal_error : forall w0 err, unsent w0 ->
  (err = GOther \/ exists e, err = GErr e /\ e_status e = 500%Z) ->
  exists w, write_bearer_error w0 err = Some (w, true) /\
    rw_sent w = Some (500%Z, rw_header w0) /\ rw_body w = "".
Proof. exact c14_bearer_500. Qed.
Print Assumptions C14_bearer_internal_error.

Example C14_case :
  unsent new_rw /\ status_with_body (e_status (InvalidClient "unknown client")) /\
  error_fields_utf8 (InvalidClient "unknown client") /\ distinct_headers (InvalidClient "unknown client") /\
  exists w h, write_error new_rw (GErr (InvalidClient "unknown client")) = Some (w, true) /\
    rw_sent w = Some (401%Z, h) /\
    h !! "Www-Authenticate" = Some ["Basic realm=" +:+ str1 dq_char +:+ "OAuth2" +:+ str1 dq_char] /\
    json_parse (rw_body w)
      = Some (JObj [("error", JStr "invalid_client"); ("error_description", JStr "unknown client")]).
Proof.
  split; [done|]. split; [unfold status_with_body; cbn; lia|]. split.
  - repeat split; try (by apply ascii_utf8); cbn; constructor.
  - split.
    + intros n m [x Hn] [y Hm] _. cbn in Hn, Hm. apply lookup_singleton_Some in Hn as [<- _], Hm as [<- _]. done.
    + do 2 eexists. repeat split; vm_compute; reflexivity.
Qed.

(** The errors the package builds have the code and the status of the standards, carry the
    description and nothing else, and ask for Basic authentication if the client is unknown. *)
Theorem C14_builders : forall w0 d name status e, unsent w0 -> valid_utf8 d -> In (name, status, e) (described d) ->
  exists w h,
    write_error w0 (GErr e) = Some (w, true) /\ rw_sent w = Some (status, h) /\
    (forall k l, h !! k = Some l <->
       described_header name k l \/ ((forall l', ~ described_header name k l') /\ rw_header w0 !! k = Some l)) /\
    json_parse (rw_body w) = Some (described_document name d).
Proof. exact c14_builders. Qed.
Print Assumptions C14_builders.

(** The challenges for a protected resource, letter by letter. *)
Theorem C14_challenges : forall w0, unsent w0 ->
  challenged w0 ProtectedResource 401 ("realm=" +:+ in_quotes "OAuth2") /\
  (forall d, d <> "" -> challenged w0 (InvalidToken d) 401
     ("error=" +:+ in_quotes "invalid_token" +:+ ", error_description=" +:+ in_quotes d)) /\
  (forall d, d <> "" -> challenged w0 (InvalidRequest d) 400
     ("error=" +:+ in_quotes "invalid_request" +:+ ", error_description=" +:+ in_quotes d)) /\
  (forall s, items s <> [] -> challenged w0 (InsufficientScope s) 403
     ("error=" +:+ in_quotes "insufficient_scope" +:+ ", scope=" +:+ in_quotes (join " " (items s)))).
Proof. exact c14_challenges. Qed.
Print Assumptions C14_challenges.

Example C14_case_builders :
  unsent new_rw /\ valid_utf8 "busy" /\
  In ("temporarily_unavailable", 503%Z, TemporarilyUnavailable "busy") (described "busy") /\
  (exists w h, write_error new_rw (GErr (TemporarilyUnavailable "busy")) = Some (w, true) /\
    rw_sent w = Some (503%Z, h)) /\
  items (Some ["foo"; "bar"]) <> [] /\
  exists w h, write_bearer_error new_rw (GErr (InsufficientScope (Some ["foo"; "bar"]))) = Some (w, true) /\
    rw_sent w = Some (403%Z, h) /\
    h !! "Www-Authenticate"
      = Some ["Bearer error=" +:+ in_quotes "insufficient_scope" +:+ ", scope=" +:+ in_quotes "foo bar"].
Proof.
  split; [done|]. split; [by apply ascii_utf8|]. split; [do 11 right; by left|]. split.
  - do 2 eexists. split; vm_compute; reflexivity.
  - split; [done|]. do 2 eexists. repeat split; vm_compute; reflexivity.
Qed.

(** C15. Every response of the server is either marked as not to be cached (and
    not to be leaked as referrer, if it is a redirect), or has one of three
    fixed bodies and neither a Location nor a challenge. *)
Theorem C15_not_cacheable : forall ev s r s' w, serve_http ev s r new_rw = (s', Some w) ->
  exists code h, rw_sent w = Some (code, h) /\
   ((not_cacheable h /\ (h !! "Location" <> None -> h !! "Referrer-Policy" = Some ["origin"])) \/
    (h !! "Location" = None /\ h !! "Www-Authenticate" = None /\ fixed_body (rw_body w))).
Proof. exact c15_proof. Qed.
Print Assumptions C15_not_cacheable.

Example C15_case :
  let c := {| en_secret := "s"; en_redirect_uri := "https://a.example/cb"; en_confidential := true |} in
  let u := {| en_secret := "pw"; en_redirect_uri := ""; en_confidential := false |} in
  let sv := {| sv_config := default_server_config "0123456789abcdef" (Some ["foo"]);
               sv_clients := {[ "c1" := c ]}; sv_users := {[ "u1" := u ]};
               sv_access := ∅; sv_refresh := ∅; sv_codes := ∅ |} in
  let rq := {| rq_method := "POST"; rq_path := "/oauth2/authorize"; rq_query := ""; rq_auth := "";
               rq_ctype := form_ctype;
               rq_body := Some ("response_type=code&client_id=c1&scope=foo&state=xyz&username=u1&password=pw&redirect_uri=https%3A%2F%2Fa.example%2Fcb", true);
               rq_preset := None |} in
  let ev := {| ev_now_check := 0; ev_now_access := 0; ev_now_refresh := 0; ev_now_code := 0;
               ev_rand := "0123456789abcdef" |} in
  match serve_http ev sv rq new_rw with
  | (s', Some w) => match rw_sent w with
                    | Some (303%Z, h) => bool_decide (h !! "Cache-Control" = Some ["no-store"])
                                         && bool_decide (size (sv_codes s') = 1)
                    | _ => false
                    end
  | _ => false
  end = true.
Proof. vm_compute. reflexivity. Qed.

(** C16. A query redirect keeps scheme, authority and path of the redirect URI
    and its query decodes to the values that were there and the parameters. *)
Theorem C16_query_redirect : forall uri u params,
  parse_request_uri uri = Some u -> ascii_text uri -> uri <> "*" ->
  exists loc u',
    redirect_location uri params false = Some loc /\
    parse_request_uri loc = Some u' /\ same_target u u' /\
    form_decodes (u_rawquery u') (fun k => values_of (url_query u) k ++ param_values params k).
Proof. exact c16_query. Qed.
Print Assumptions C16_query_redirect.

(** A Location for a URI without '#' has none, so the parameters are in the
    query for every user agent. *)
Theorem C16_no_fragment : forall uri u params loc,
  parse_request_uri uri = Some u -> without "#" uri ->
  redirect_location uri params false = Some loc -> without "#" loc.
Proof. exact c16_no_fragment. Qed.
Print Assumptions C16_no_fragment.

(** The URI "*". *)
Theorem C16_star : forall params, params <> ∅ -> exists q,
  redirect_location "*" params false = Some ("*?" +:+ q) /\ form_decodes q (param_values params).
Proof. exact c16_star. Qed.
Print Assumptions C16_star.

Definition odd_params : gmap string string :=
  <["state" := "a&b=c#%20 +" +:+ String "195" (String "169" "")]> {[ "code" := "x.y" ]}.
Example C16_case :
  exists loc u u',
    redirect_location "https://u:p%40@[fe80::1%25en0]:8080/a%2Fb?x=1&x=2" odd_params false = Some loc /\
    parse_request_uri "https://u:p%40@[fe80::1%25en0]:8080/a%2Fb?x=1&x=2" = Some u /\
    parse_request_uri loc = Some u' /\ u_host u' = "[fe80::1%en0]:8080" /\ u_path u' = "/a/b" /\
    values_of (url_query u) "x" = ["1"; "2"] /\ values_of (url_query u') "x" = ["1"; "2"] /\
    values_of (url_query u') "state" = param_values odd_params "state".
Proof. do 3 eexists. repeat split; vm_compute; reflexivity. Qed.
(** The hypotheses are needed: a zone id outside ASCII is printed in a form
    that does not parse, and behind '#' there is no query. *)
Example C16_limits :
  (exists u loc, parse_request_uri ("http://[::1%25" +:+ String "233" "]/") = Some u /\
     redirect_location ("http://[::1%25" +:+ String "233" "]/") odd_params false = Some loc /\
     parse_request_uri loc = None) /\
  redirect_location "app:x#y" {[ "code" := "1" ]} false = Some "app:x#y?code=1".
Proof. split; [do 2 eexists; repeat split|]; vm_compute; reflexivity. Qed.

(** C17. Form-decoding the fragment gives exactly the parameters if they
    consist of letters, digits, "-._~" and blanks. Missing: all other values,
    for which the property is false (C17_fragment_redirect_refuted), because
    the encoded form is percent-encoded a second time. *)
Theorem C17_fragment_redirect_partial : forall uri u params,
  parse_request_uri uri = Some u -> without "#" uri ->
  (forall k v, params !! k = Some v -> plain_text k /\ plain_text v) ->
  exists loc,
    redirect_location uri params true = Some loc /\ form_decodes (fragment_of loc) (param_values params).
Proof. exact c17_partial. Qed.
Print Assumptions C17_fragment_redirect_partial.

(** For all parameters: one percent-decoding followed by form-decoding. *)
Theorem C17_fragment_decoded_twice : forall uri u params,
  parse_request_uri uri = Some u -> without "#" uri ->
  exists loc t,
    redirect_location uri params true = Some loc /\
    unescape EncFragment (fragment_of loc) = Some t /\ form_decodes t (param_values params).
Proof. exact c17_twice. Qed.
Print Assumptions C17_fragment_decoded_twice.

(** Exactly what the receiver reads: every parameter, percent-encoded. The
    encoded text is the text itself just for the values above. *)
Theorem C17_fragment_exact : forall uri u params,
  parse_request_uri uri = Some u -> without "#" uri ->
  exists loc v,
    redirect_location uri params true = Some loc /\ parse_query (fragment_of loc) = (v, true) /\
    (forall k, values_of v (percent_encoded k) = map percent_encoded (param_values params k)) /\
    (forall k, values_of v k <> [] -> exists j, k = percent_encoded j).
Proof. exact c17_exact. Qed.
Print Assumptions C17_fragment_exact.

Theorem C17_fragment_unchanged : forall s, percent_encoded s = s <-> plain_text s.
Proof. exact percent_encoded_plain. Qed.
Print Assumptions C17_fragment_unchanged.

(** The part before '#' is the redirect URI. *)
Theorem C17_fragment_target : forall uri u params,
  parse_request_uri uri = Some u -> ascii_text uri -> uri <> "*" -> without "#" uri ->
  exists loc u',
    redirect_location uri params true = Some loc /\
    parse_request_uri (before_fragment loc) = Some u' /\ same_target u u' /\ u_rawquery u' = u_rawquery u.
Proof. exact c17_target. Qed.
Print Assumptions C17_fragment_target.

Theorem C17_fragment_redirect_refuted : exists uri params loc v,
  uri = "https://example.com/cb" /\ params = {[ "state" := "a&b" ]} /\
  redirect_location uri params true = Some loc /\
  parse_query (fragment_of loc) = (v, true) /\
  values_of v "state" = ["a%26b"] /\ ~ form_decodes (fragment_of loc) (param_values params).
Proof. exact c17_refuted. Qed.
Print Assumptions C17_fragment_redirect_refuted.

Example C17_case :
  redirect_location "https://example.com/cb?x=%41" (<["token_type" := "bearer"]> {[ "state" := "a b~" ]}) true
    = Some "https://example.com/cb?x=%41#state=a+b~&token_type=bearer" /\
  redirect_location "https://example.com/cb" {[ "state" := "a&b" ]} true
    = Some "https://example.com/cb#state=a%2526b".
Proof. vm_compute. split; reflexivity. Qed.
