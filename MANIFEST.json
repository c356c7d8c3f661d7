{
 "claims": [
  {
   "property": "C01",
   "status": "proved",
   "theorems": [
    "C01_issued_tokens_parse_back"
   ],
   "note": ""
  },
  {
   "property": "C02",
   "status": "proved",
   "theorems": [
    "C02_accepts_exactly_authentic_tokens",
    "C02_rejects_with_first_error"
   ],
   "note": ""
  },
  {
   "property": "C03",
   "status": "proved",
   "theorems": [
    "C03_identity_independent_of_spelling"
   ],
   "note": ""
  },
  {
   "property": "C04",
   "status": "partial",
   "theorems": [
    "C04_one_spelling_refuted",
    "C04_one_canonical_spelling_partial",
    "C04_spellings_exact"
   ],
   "note": "False of the code: left-over bits and line breaks are ignored by encoding/base64, shown by C04_one_spelling_refuted. Proved: exactly one accepted spelling is canonical and it is Token.String(). C04_spellings_exact describes all accepted spellings: line breaks anywhere, any spare bits at the end of a segment."
  },
  {
   "property": "C05",
   "status": "proved",
   "theorems": [
    "C05_generation_all_or_nothing",
    "C05_negative_length_panics",
    "C05_reader",
    "C05_reader_calls",
    "C05_reader_one",
    "C05_reader_twice"
   ],
   "note": ""
  },
  {
   "property": "C06",
   "status": "proved",
   "theorems": [
    "C06_signature_shape"
   ],
   "note": ""
  },
  {
   "property": "C07",
   "status": "proved",
   "theorems": [
    "C07_parse_scope_normal_form",
    "C07_parse_scope_items"
   ],
   "note": ""
  },
  {
   "property": "C08",
   "status": "proved",
   "theorems": [
    "C08_scope_string_roundtrip"
   ],
   "note": ""
  },
  {
   "property": "C09",
   "status": "proved",
   "theorems": [
    "C09_inclusion_is_set_inclusion",
    "C09_inclusion_ignores_order_and_duplicates"
   ],
   "note": ""
  },
  {
   "property": "C10",
   "status": "proved",
   "theorems": [
    "C10_scope_unmarshal_exact",
    "C10_scope_json_roundtrip",
    "C10_scope_unmarshal",
    "C10_scope_unmarshal_only_strings"
   ],
   "note": ""
  },
  {
   "property": "C11",
   "status": "proved",
   "theorems": [
    "C11_bearer_token_exact",
    "C11_bearer_errors"
   ],
   "note": ""
  },
  {
   "property": "C12",
   "status": "proved",
   "theorems": [
    "C12_challenge_order",
    "C12_location_order",
    "C12_encode_order",
    "C12_headers_order"
   ],
   "note": "Includes WriteError's extra headers, provided no two of them denote the same HTTP header (otherwise the code itself is order dependent)."
  },
  {
   "property": "C13",
   "status": "partial",
   "theorems": [
    "C13_challenge_readable_partial",
    "C13_challenge_exact",
    "C13_challenge_readable_refuted"
   ],
   "note": "False of the code for values with a double quote or backslash, which WriteBearerError does not escape (C13_challenge_readable_refuted). Proved for all other values; C13_challenge_exact proves that the challenge can be read back exactly for those."
  },
  {
   "property": "C14",
   "status": "proved",
   "theorems": [
    "C14_error_document",
    "C14_other_error",
    "C14_panic",
    "C14_bearer_error",
    "C14_bearer_internal_error",
    "C14_builders",
    "C14_challenges"
   ],
   "note": ""
  },
  {
   "property": "C15",
   "status": "proved",
   "theorems": [
    "C15_not_cacheable"
   ],
   "note": ""
  },
  {
   "property": "C16",
   "status": "proved",
   "theorems": [
    "C16_query_redirect",
    "C16_no_fragment",
    "C16_star"
   ],
   "note": "C16_limits shows why the URI must be ASCII and free of '#'. The URI \"*\" is treated separately."
  },
  {
   "property": "C17",
   "status": "partial",
   "theorems": [
    "C17_fragment_redirect_partial",
    "C17_fragment_decoded_twice",
    "C17_fragment_exact",
    "C17_fragment_unchanged",
    "C17_fragment_target",
    "C17_fragment_redirect_refuted"
   ],
   "note": "False of the code: URL.String percent-encodes the already encoded form again, so a '&' in state arrives as '%26' (C17_fragment_redirect_refuted). Proved for values that need no percent-encoding; for all values C17_fragment_exact says what is read."
  },
  {
   "property": "C18",
   "status": "proved",
   "theorems": [
    "C18_no_open_redirect",
    "C18_redirect_target",
    "C18_refused"
   ],
   "note": "redirect_uri is the decoded form parameter, which the parser unescapes once more (see C24)."
  },
  {
   "property": "C19",
   "status": "partial",
   "theorems": [
    "C19_state_in_query",
    "C19_state_in_fragment_partial",
    "C19_state_in_fragment_exact",
    "C19_state_refuted"
   ],
   "note": "The query half is proved for all states. The fragment half is false of the code for states that need percent-encoding (C19_state_refuted, same cause as C17), proved for the others and described exactly for all."
  },
  {
   "property": "C20",
   "status": "proved",
   "theorems": [
    "C20_parsers_ignore_query",
    "C20_endpoints_ignore_query"
   ],
   "note": ""
  },
  {
   "property": "C21",
   "status": "proved",
   "theorems": [
    "C21_get_has_no_effect",
    "C21_credentials_in_body",
    "C21_body_param_not_query",
    "C21_body_param_value",
    "C21_other_query_irrelevant"
   ],
   "note": ""
  },
  {
   "property": "C22",
   "status": "proved",
   "theorems": [
    "C22_token_request_roundtrip",
    "C22_colon"
   ],
   "note": "With the form body within the 10 MiB limit of net/http and a well-formed query in the endpoint URI. C22_colon shows why the client id must have no colon."
  },
  {
   "property": "C23",
   "status": "proved",
   "theorems": [
    "C23_introspection_request_roundtrip",
    "C23_revocation_request_roundtrip"
   ],
   "note": "With the form body within the 10 MiB limit of net/http and a well-formed query in the endpoint URI."
  },
  {
   "property": "C24",
   "status": "partial",
   "theorems": [
    "C24_authorization_redirect_uri_partial",
    "C24_token_redirect_uri_partial",
    "C24_redirect_uri_exact",
    "C24_redirect_uri_refuted"
   ],
   "note": "False of the code: redirect_uri is unescaped a second time (C24_redirect_uri_refuted). Proved for URIs without '%' and '+'; C24_redirect_uri_exact describes all."
  },
  {
   "property": "C25",
   "status": "partial",
   "theorems": [
    "C25_fragment_partial",
    "C25_fragment_exact",
    "C25_fragment_refuted"
   ],
   "note": "False of the code: ParseRequestURI never yields a fragment, so \"https://a.example/cb#frag\" is accepted (C25_fragment_refuted). Proved only for '#' directly after the authority, which the host check refuses. C25_fragment_exact: an accepted redirect URI stays accepted with a fragment appended, except \"*\" and scheme://authority without path and query."
  },
  {
   "property": "C26",
   "status": "proved",
   "theorems": [
    "C26_basic_credentials",
    "C26_without_basic"
   ],
   "note": ""
  },
  {
   "property": "C27",
   "status": "proved",
   "theorems": [
    "C27_authorize_grants",
    "C27_granted_silently",
    "C27_refusals"
   ],
   "note": ""
  },
  {
   "property": "C28",
   "status": "proved",
   "theorems": [
    "C28_concurrent",
    "C28_read_only"
   ],
   "note": "C28_concurrent: no step of these calls writes shared memory, in any schedule."
  },
  {
   "property": "C29",
   "status": "proved",
   "theorems": [
    "C29_access_until_expiry",
    "C29_refresh_until_expiry",
    "C29_code_until_expiry",
    "C29_expired_access_forever",
    "C29_expired_refresh_forever",
    "C29_expired_code_forever"
   ],
   "note": ""
  },
  {
   "property": "C30",
   "status": "proved",
   "theorems": [
    "C30_accepted_in_history",
    "C30_expires_in",
    "C30_accepted_while_announced"
   ],
   "note": "C30_accepted_while_announced for every later state in which the token's entry is unchanged, C30_accepted_in_history for every continuation of a history without revocation, replay or re-issue."
  },
  {
   "property": "C31",
   "status": "proved",
   "theorems": [
    "C31_scopes_allowed",
    "C31_announced_scope"
   ],
   "note": ""
  },
  {
   "property": "C32",
   "status": "proved",
   "theorems": [
    "C32_refresh_never_escalates"
   ],
   "note": ""
  },
  {
   "property": "C33",
   "status": "proved",
   "theorems": [
    "C33_refresh_redeemed_at_most_once"
   ],
   "note": ""
  },
  {
   "property": "C34",
   "status": "proved",
   "theorems": [
    "C34_code_redeemed_at_most_once"
   ],
   "note": ""
  },
  {
   "property": "C35",
   "status": "proved",
   "theorems": [
    "C35_code_bound",
    "C35_redemption"
   ],
   "note": ""
  },
  {
   "property": "C36",
   "status": "proved",
   "theorems": [
    "C36_access_tokens_of_the_code",
    "C36_refresh_tokens_of_the_code",
    "C36_replay_revokes",
    "C36_replay_refused",
    "C36_any_iteration_order"
   ],
   "note": ""
  },
  {
   "property": "C37",
   "status": "partial",
   "theorems": [
    "C37_replay_revokes_descendants_refuted",
    "C37_replay_revokes_direct_partial",
    "C37_descendants_survive"
   ],
   "note": "False of the code: tokens issued by the refresh grant do not remember the authorization code, so they survive its replay (C37_replay_revokes_descendants_refuted). Proved for the tokens issued by the redemption itself. C37_descendants_survive: for tokens obtained by refreshing, a replay never changes whether they are accepted."
  },
  {
   "property": "C38",
   "status": "proved",
   "theorems": [
    "C38_effect_needs_authentication",
    "C38_success_needs_authentication",
    "C38_unauthenticated_refused"
   ],
   "note": ""
  },
  {
   "property": "C39",
   "status": "proved",
   "theorems": [
    "C39_public_clients"
   ],
   "note": ""
  },
  {
   "property": "C40",
   "status": "proved",
   "theorems": [
    "C40_password_presented"
   ],
   "note": ""
  },
  {
   "property": "C41",
   "status": "proved",
   "theorems": [
    "C41_no_refresh_token_stored",
    "C41_fragment_without_refresh_token",
    "C41_query_without_refresh_token"
   ],
   "note": "In the query case a refresh_token parameter can only be one the registered redirect URI already has."
  },
  {
   "property": "C42",
   "status": "proved",
   "theorems": [
    "C42_errors_have_no_effect"
   ],
   "note": ""
  },
  {
   "property": "C43",
   "status": "proved",
   "theorems": [
    "C43_concurrent",
    "C43_failing_source",
    "C43_no_key",
    "C43_no_second_key"
   ],
   "note": "C43_concurrent: the mutex is released."
  },
  {
   "property": "C44",
   "status": "partial",
   "theorems": [
    "C44_others_partial",
    "C44_others_exact",
    "C44_others_refuted"
   ],
   "note": "False of the code: a used code presented by any client revokes the tokens issued for it (C44_others_refuted). Proved for all requests that do not present a used code. C44_others_exact: for every request, a replay is the only way to end another client's tokens, and it ends only tokens of the replayed code."
  },
  {
   "property": "C45",
   "status": "proved",
   "theorems": [
    "C45_revocation_permanent"
   ],
   "note": ""
  },
  {
   "property": "C46",
   "status": "proved",
   "theorems": [
    "C46_owner_revokes",
    "C46_only_the_named_token",
    "C46_unknown_token",
    "C46_repeated",
    "C46_answer"
   ],
   "note": ""
  },
  {
   "property": "C47",
   "status": "proved",
   "theorems": [
    "C47_introspection_answers",
    "C47_discloses_own_tokens_only"
   ],
   "note": ""
  },
  {
   "property": "C48",
   "status": "partial",
   "theorems": [
    "C48_active_partial",
    "C48_active_exact",
    "C48_active_refuted"
   ],
   "note": "False of the code: introspection ignores the expiry (C48_active_refuted). Proved for instants up to the reported expiry second. C48_active_exact: a token reported active is accepted exactly until an instant within the reported expiry second."
  },
  {
   "property": "C49",
   "status": "proved",
   "theorems": [
    "C49_access_kind",
    "C49_refresh_kind",
    "C49_code_kind",
    "C49_restart"
   ],
   "note": ""
  },
  {
   "property": "C50",
   "status": "proved",
   "theorems": [
    "C50_authorize_history"
   ],
   "note": "Events are requests and answers; the server secret determines which token strings are meant."
  },
  {
   "property": "C51",
   "status": "proved",
   "theorems": [
    "C51_clients_and_secrets",
    "C51_any_request",
    "C51_users_and_passwords",
    "C51_authorization_endpoint"
   ],
   "note": "Byte for byte: the response writers are equal."
  },
  {
   "property": "C52",
   "status": "proved",
   "theorems": [
    "C52_last_segment_only",
    "C52_dispatch",
    "C52_not_found"
   ],
   "note": ""
  },
  {
   "property": "C53",
   "status": "proved",
   "theorems": [
    "C53_linearizable",
    "C53_replies_so_far",
    "C53_memory_so_far",
    "C53_one_server",
    "C53_some_memory",
    "C53_history",
    "C53_owned",
    "C53_real_time",
    "C53_every_order",
    "C53_no_deadlock",
    "C53_terminates",
    "C53_completes",
    "C53_released",
    "C53_exclusive"
   ],
   "note": "Each goroutine makes one call and may be delayed arbitrarily, so a goroutine making several calls one after the other is a special case (C53_real_time). The memory model is sequentially consistent; C53_exclusive shows that all accesses are ordered by the mutex, which justifies this. Assignments to Config, Clients, Users and the credential maps are calls too (C53_owned); their callers hold the exported mutex, callers that do not are outside the model."
  },
  {
   "property": "C54",
   "status": "proved",
   "theorems": [
    "C54_always_answered",
    "C54_authorize_answers"
   ],
   "note": ""
  },
  {
   "property": "C55",
   "status": "proved",
   "theorems": [
    "C55_authenticate",
    "C55_introspect",
    "C55_revoke",
    "C55_panic",
    "C55_password",
    "C55_client_credentials",
    "C55_authorization_code",
    "C55_refresh_token",
    "C55_other_grants",
    "C55_token_usable",
    "C55_introspect_active",
    "C55_revoke_own",
    "C55_revoke_permanent"
   ],
   "note": "In every history from a fresh server. Assumes the client URI leads to the endpoint, no colon in the client id, well-formed scope items, request within 10 MiB, answer within ResponseLimit, UTF-8 names. The transport delivers every byte."
  },
  {
   "property": "C56",
   "status": "proved",
   "theorems": [
    "C56_token_roundtrip"
   ],
   "note": ""
  },
  {
   "property": "C57",
   "status": "proved",
   "theorems": [
    "C57_introspection_roundtrip",
    "C57_unknown_type_refused"
   ],
   "note": "Extra is a map whose values are JSON values; numbers are float64 (C71)."
  },
  {
   "property": "C58",
   "status": "proved",
   "theorems": [
    "C58_others_undisturbed",
    "C58_new_tokens_stored",
    "C58_new_code_stored"
   ],
   "note": ""
  },
  {
   "property": "C59",
   "status": "proved",
   "theorems": [
    "C59_password_grant",
    "C59_client_credentials_grant",
    "C59_authorization_code_grant",
    "C59_refresh_token_grant",
    "C59_implicit_authorization",
    "C59_code_authorization"
   ],
   "note": ""
  },
  {
   "property": "C60",
   "status": "proved",
   "theorems": [
    "C60_refresh_history"
   ],
   "note": ""
  },
  {
   "property": "C61",
   "status": "proved",
   "theorems": [
    "C61_code_history"
   ],
   "note": ""
  },
  {
   "property": "C62",
   "status": "proved",
   "theorems": [
    "C62_error_roundtrip"
   ],
   "note": ""
  },
  {
   "property": "C63",
   "status": "proved",
   "theorems": [
    "C63_token_cut",
    "C63_introspection_cut",
    "C63_error_cut"
   ],
   "note": ""
  },
  {
   "property": "C64",
   "status": "proved",
   "theorems": [
    "C64_server_passes",
    "C64_own_test"
   ],
   "note": "The Go test framework, httptest and the mux are modelled by run_suite and mounted (two fixed targets instead of http.ServeMux). Redirect URIs are ASCII without a fragment. The seconds of all times are int64."
  },
  {
   "property": "C65",
   "status": "proved",
   "theorems": [
    "C65_examined",
    "C65_forgetful"
   ],
   "note": "The handler is any function from environment, state and request to a new state and a response, or a panic. The suite's own checks of realms, token types and expiry are not part of the conclusion."
  },
  {
   "property": "C66",
   "status": "proved",
   "theorems": [
    "C66_introspection_history"
   ],
   "note": "Redeeming a refresh token and getting back a refresh token with the same signature counts as the end of the token, as in C45. Expiry is not looked at by introspection (see C48)."
  },
  {
   "property": "C67",
   "status": "proved",
   "theorems": [
    "C67_only_comparisons",
    "C67_unguessed_secret",
    "C67_serve",
    "C67_authorize",
    "C67_history"
   ],
   "note": "Equality of the outcomes of all calls; the bytes of a response are a function of the outcome. Running times are not modelled."
  },
  {
   "property": "C68",
   "status": "proved",
   "theorems": [
    "C68_memory_bound",
    "C68_kept_until_ended"
   ],
   "note": ""
  },
  {
   "property": "C69",
   "status": "proved",
   "theorems": [
    "C69_clients_are_isolated",
    "C69_calls",
    "C69_groups"
   ],
   "note": "The three conditions are needed: the first because lookups of foreign tokens are answered 'wrong client' (C69_condition_needed), the second because of the finding in C44, the third because of colliding signatures."
  },
  {
   "property": "C70",
   "status": "proved",
   "theorems": [
    "C70_code_flow",
    "C70_access_token_lasts",
    "C70_refresh_token_lasts",
    "C70_implicit_flow"
   ],
   "note": "The state arrives percent-encoded in the fragment of the implicit grant (finding in C19); redirect URIs with a fragment or outside ASCII are excluded (C16_limits, C25)."
  },
  {
   "property": "C71",
   "status": "proved",
   "theorems": [
    "C71_nearest_float64",
    "C71_exact_numbers",
    "C71_out_of_range_refused",
    "C71_large_integer_rounded"
   ],
   "note": "Only number literals of at most 9000 bytes (strconv.ParseFloat reads longer exponents in part). C71_large_integer_rounded shows that 2^53+1 comes back as 2^53."
  },
  {
   "property": "C72",
   "status": "partial",
   "theorems": [
    "C72_slow_client_refuted",
    "C72_standstill",
    "C72_one_waits",
    "C72_only_forms",
    "C72_slow_client_partial",
    "C72_nothing_begun",
    "C72_all_done"
   ],
   "note": "False of the code: ServeHTTP and Authorize lock the mutex before the form is read and unlock it after the response is written (C72_slow_client_refuted). C72_standstill: nothing else happens before the client acts. C72_slow_client_partial and the others say what remains. The model lets every response wait; net/http buffers short ones, so in practice the wait for the form is the one that matters."
  },
  {
   "property": "C73",
   "status": "proved",
   "theorems": [
    "C73_access_tokens",
    "C73_refresh_tokens",
    "C73_codes",
    "C73_settings",
    "C73_foreign_secret"
   ],
   "note": "Entries that share one *ServerCredential, and maps set to nil, are not covered."
  },
  {
   "property": "C74",
   "status": "proved",
   "theorems": [
    "C74_elapsed",
    "C74_reported",
    "C74_one_number",
    "C74_settings",
    "C74_stopwatch",
    "C74_undisturbed",
    "C74_introspection"
   ],
   "note": "Time.v models time.Time of Go 1.16, Clock.v the server with it; refinement to Server.v."
  },
  {
   "property": "C75",
   "status": "proved",
   "theorems": [
    "C75_one_reading",
    "C75_content_type",
    "C75_fields",
    "C75_token_request",
    "C75_authorization_request",
    "C75_lookup_requests",
    "C75_unreadable",
    "C75_readable_or_not"
   ],
   "note": "Declarative reading of form texts (FormSpec.v) and of content types (MediaSpec.v)."
  },
  {
   "property": "C76",
   "status": "partial",
   "theorems": [
    "C76_parameters_stay_refuted",
    "C76_secret_stays_refuted",
    "C76_same_server_partial",
    "C76_relative_redirect",
    "C76_careful_client",
    "C76_careful_result",
    "C76_first_message",
    "C76_no_redirect_one_message",
    "C76_next_message",
    "C76_reference",
    "C76_next_secret",
    "C76_secret_host",
    "C76_referer",
    "C76_at_most_ten",
    "C76_result"
   ],
   "note": "False of the code: C76_parameters_stay_refuted (307 from https to a plain http server carries the password) and C76_secret_stays_refuted (two 302 carry the client secret; net/http of Go 1.16 compares each hop with the one before it). C76_same_server_partial and the other theorems say what holds. http.Client is modelled from the Go 1.16 sources as remembered; no cookie jar."
  },
  {
   "property": "C77",
   "status": "proved",
   "theorems": [
    "C77_authenticate",
    "C77_introspect",
    "C77_revoke",
    "C77_user_of_uri",
    "C77_blank_in_query"
   ],
   "note": "first_answered: the network's answer to the first message is the server's. The request line is the only part of the HTTP framing that is modelled."
  },
  {
   "property": "C78",
   "status": "proved",
   "theorems": [
    "C78_endpoints",
    "C78_authenticate",
    "C78_introspect",
    "C78_revoke"
   ],
   "note": "The bounds of 150 and 250 bytes are sufficient, not exact: a byte may take up to six bytes in JSON. Longer answers are cut off at 2048 bytes and then an error (C63)."
  },
  {
   "property": "C79",
   "status": "proved",
   "theorems": [
    "C79_json",
    "C79_one_meaning",
    "C79_token",
    "C79_introspection",
    "C79_introspection_limited",
    "C79_error",
    "C79_authenticate",
    "C79_introspect",
    "C79_introspect_limited",
    "C79_revoke"
   ],
   "note": "Content types as in MediaSpec.v; JSON texts as in TextSpec.v."
  },
  {
   "property": "C80",
   "status": "proved",
   "theorems": [
    "C80_serve",
    "C80_authorize",
    "C80_net_http",
    "C80_net_http_authorize",
    "C80_broken_connection",
    "C80_write",
    "C80_write_redirect",
    "C80_write_error",
    "C80_write_other_error",
    "C80_write_token",
    "C80_write_code",
    "C80_write_introspection",
    "C80_write_bearer"
   ],
   "note": "C80_serve: state and calls do not depend on the writer. A response writer is any function from its state and a call to a new state and an end (fine, error, panic); one that calls back into the server is not covered. Header calls on the map returned by Header() are counted as calls of the writer."
  },
  {
   "property": "C81",
   "status": "proved",
   "theorems": [
    "C81_refused",
    "C81_introspection",
    "C81_revocation",
    "C81_refresh",
    "C81_code",
    "C81_tokens",
    "C81_authorization"
   ],
   "note": "C81_refused uses the same time and random bytes for both attempts, since a later time may refuse for another reason (expiry)."
  },
  {
   "property": "C82",
   "status": "proved",
   "theorems": [
    "C82_serve",
    "C82_authorize",
    "C82_history"
   ],
   "note": "C82_serve, C82_authorize for one call, C82_history for sequences. The configuration is the same on both sides."
  },
  {
   "property": "C83",
   "status": "proved",
   "theorems": [
    "C83_commute",
    "C83_requests",
    "C83_any_order",
    "C83_concurrent"
   ],
   "note": "C83_commute is the exchange, C83_requests a sufficient condition in terms of what requests present. C83_any_order is for any number of calls, C83_concurrent for goroutines."
  },
  {
   "property": "C84",
   "status": "proved",
   "theorems": [
    "C84_token",
    "C84_introspect",
    "C84_revoke",
    "C84_authorize",
    "C84_redirected",
    "C84_one"
   ],
   "note": "The conditions are listed in Spec/RefusalSpec.v; refuses_with says that exactly they lead to an error document. The location of C84_redirected is the one of C17."
  },
  {
   "property": "C85",
   "status": "proved",
   "theorems": [
    "C85_token_map",
    "C85_code_map",
    "C85_error_map",
    "C85_bearer",
    "C85_numbers",
    "C85_token_document",
    "C85_introspection_document",
    "C85_introspection_refused",
    "C85_token_redirect",
    "C85_code_redirect",
    "C85_error_redirect",
    "C85_token_set_redirect",
    "C85_error_set_redirect",
    "C85_token_form",
    "C85_lookup_form",
    "C85_known_grants",
    "C85_known_responses",
    "C85_known_tokens",
    "C85_valid",
    "C85_equal",
    "C85_error_text"
   ],
   "note": "Members and parameters are listed in Spec/HelperSpec.v; writes_document and writes_redirect say what a client reads. In a fragment every parameter is encoded twice (C17)."
  },
  {
   "property": "C86",
   "status": "proved",
   "theorems": [
    "C86_sha256",
    "C86_hmac",
    "C86_from_key",
    "C86_valid",
    "C86_parse"
   ],
   "note": "Spec/HashSpec.v defines SHA-256 and HMAC from the text of the standards: bit by bit, with the constants as roots of primes, the schedule as a recurrence and the padding by its length. The model is proved to compute the one result."
  },
  {
   "property": "C87",
   "status": "proved",
   "theorems": [
    "C87_equal",
    "C87_equal_steps",
    "C87_valid",
    "C87_valid_steps",
    "C87_parse",
    "C87_forgeries"
   ],
   "note": "Model/Timing.v gives the functions with the list of branches and reads they make (the usual reading of constant time); caches and the time of one instruction are not modelled."
  },
  {
   "property": "C88",
   "status": "partial",
   "theorems": [
    "C88_equal",
    "C88_secrets_refuted",
    "C88_lengths",
    "C88_secrets_partial"
   ],
   "note": "Refuted for comparison in pieces of any size (C88_secrets_refuted); C88_secrets_partial and C88_lengths say exactly what shows. Same reading of steps as in C87."
  },
  {
   "property": "C89",
   "status": "partial",
   "theorems": [
    "C89_revoke_refuted",
    "C89_introspect_refuted",
    "C89_revoke_partial",
    "C89_introspect_partial",
    "C89_unknown_partial"
   ],
   "note": "False of the code (C89_revoke_refuted, C89_introspect_refuted). The partial theorems say exactly which tokens are answered 200, and that an unknown authentic token is reported inactive."
  },
  {
   "property": "C90",
   "status": "partial",
   "theorems": [
    "C90_repeated_refuted",
    "C90_two_ways_refuted",
    "C90_first_counts_partial",
    "C90_header_counts_partial"
   ],
   "note": "False of the code (C90_repeated_refuted, C90_two_ways_refuted). Proved: the first occurrence and the header count, nothing else."
  },
  {
   "property": "C91",
   "status": "partial",
   "theorems": [
    "C91_server_refuted",
    "C91_client_refuted",
    "C91_server_partial",
    "C91_server_exact",
    "C91_client_exact",
    "C91_client_lookups_exact"
   ],
   "note": "False of the code (C91_server_refuted, C91_client_refuted). Proved for headers that the encoding leaves unchanged; the exact theorems say that id and secret are read and written verbatim."
  },
  {
   "property": "C92",
   "status": "partial",
   "theorems": [
    "C92_client_credentials_refuted",
    "C92_refresh_tokens_partial"
   ],
   "note": "False of the code (C92_client_credentials_refuted). Proved: exactly the answers of the token endpoint have a refresh token."
  },
  {
   "property": "C93",
   "status": "partial",
   "theorems": [
    "C93_errors_refuted",
    "C93_errors_partial",
    "C93_errors_exact",
    "C93_challenge"
   ],
   "note": "False of the code (C93_errors_refuted). Proved: all errors but five conform (C93_errors_partial), and these five do not (C93_errors_exact)."
  },
  {
   "property": "C94",
   "status": "partial",
   "theorems": [
    "C94_response_type_refuted",
    "C94_no_uri_refuted",
    "C94_address",
    "C94_told_partial",
    "C94_no_uri_exact"
   ],
   "note": "False of the code (C94_response_type_refuted, C94_no_uri_refuted). Proved: redirects go only to the registered URI of a known client (C94_address), and then only the response type can be wrong without the client being told (C94_told_partial); see C84_redirected for the codes."
  },
  {
   "property": "C95",
   "status": "partial",
   "theorems": [
    "C95_access_refuted",
    "C95_others_partial"
   ],
   "note": "False of the code (C95_access_refuted). Proved: a revocation has no effect on other tokens (C95_others_partial); that the named one is refused afterwards is C45."
  },
  {
   "property": "C96",
   "status": "partial",
   "theorems": [
    "C96_successors_refuted",
    "C96_refused_partial"
   ],
   "note": "False of the code (C96_successors_refuted). Proved: a refresh token that is not registered is refused and the server stays as it is (C96_refused_partial)."
  },
  {
   "property": "C97",
   "status": "proved",
   "theorems": [
    "C97_tokens",
    "C97_codes",
    "C97_errors",
    "C97_scopes",
    "C97_documents",
    "C97_error_documents"
   ],
   "note": ""
  },
  {
   "property": "C98",
   "status": "proved",
   "theorems": [
    "C98_access",
    "C98_refresh",
    "C98_code",
    "C98_introspection",
    "C98_signatures"
   ],
   "note": ""
  },
  {
   "property": "C99",
   "status": "proved",
   "theorems": [
    "C99_tokens",
    "C99_codes",
    "C99_distinct",
    "C99_other_bytes",
    "C99_any_key",
    "C99_any_code"
   ],
   "note": ""
  },
  {
   "property": "C100",
   "status": "proved",
   "theorems": [
    "C100_token",
    "C100_introspection",
    "C100_error",
    "C100_token_any",
    "C100_introspection_any",
    "C100_error_any",
    "C100_calls",
    "C100_returns"
   ],
   "note": ""
  },
  {
   "property": "C101",
   "status": "proved",
   "theorems": [
    "C101_form",
    "C101_any",
    "C101_returns",
    "C101_answer"
   ],
   "note": ""
  }
 ]
}