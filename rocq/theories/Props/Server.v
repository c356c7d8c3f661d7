(** C27 - C59: single requests to the server. Histories of requests are in
    Props/Histories.v. *)
From Verif.Model Require Import Server.
From Verif.Spec Require Import TokenSpec ScopeSpec WireSpec RequestSpec ServerSpec Cases.
From Verif.Proof Require Import ServerProofs GrantProofs EffectProofs CaseProofs.

(** C27. *)
Theorem C27_authorize_grants : forall now s r required w,
  (exists w', authorize now s r required w = Some (true, w')) <->
  (exists str c, bearer r str /\ access_token s str c /\ (now <= cd_expires_at c)%Z /\ covers (cd_scope c) required).
Proof. exact c27_granted. Qed.
Print Assumptions C27_authorize_grants.

Theorem C27_granted_silently : forall now s r required w w',
  authorize now s r required w = Some (true, w') -> w' = w.
Proof. exact c27_silent. Qed.
Print Assumptions C27_granted_silently.

(** Each refusal, in the order of the checks. *)
Theorem C27_refusals : forall now s r required w, unsent w ->
  (rq_auth r = "" -> exists w', authorize now s r required w = Some (false, w') /\
     challenge w' 401 ("realm=" +:+ quoted "OAuth2")) /\
  (rq_auth r <> "" -> (forall str, ~ bearer r str) -> exists w', authorize now s r required w = Some (false, w') /\
     challenge w' 400 ("error=" +:+ quoted "invalid_request" +:+ ", error_description=" +:+ quoted "malformed authorization header")) /\
  (forall str, bearer r str ->
    ((forall sg, ~ names (server_secret s) str sg) -> exists w', authorize now s r required w = Some (false, w') /\
       challenge w' 401 ("error=" +:+ quoted "invalid_token" +:+ ", error_description=" +:+ quoted "malformed token")) /\
    (forall sg, names (server_secret s) str sg ->
      (sv_access s !! sg = None -> exists w', authorize now s r required w = Some (false, w') /\
         challenge w' 401 ("error=" +:+ quoted "invalid_token" +:+ ", error_description=" +:+ quoted "unknown token")) /\
      (forall c, sv_access s !! sg = Some c ->
        ((cd_expires_at c < now)%Z -> exists w', authorize now s r required w = Some (false, w') /\
           challenge w' 401 ("error=" +:+ quoted "invalid_token" +:+ ", error_description=" +:+ quoted "expired token")) /\
        ((now <= cd_expires_at c)%Z -> ~ covers (cd_scope c) required -> exists w', authorize now s r required w = Some (false, w') /\
           challenge w' 403 ("error=" +:+ quoted "insufficient_scope" +:+ ", scope=" +:+ quoted (join " " (items required))))))).
Proof. exact c27_refused. Qed.
Print Assumptions C27_refusals.

Example C27_case :
  let s := after step2 in let r := bearer_request (access_of step2) in
  authorize (1002 * second) s r (Some ["read"]) new_rw = Some (true, new_rw) /\
  (exists w, authorize (1002 * second) s r (Some ["read"; "write"]) new_rw = Some (false, w) /\ status w = 403%Z) /\
  (exists w, authorize (4602 * second) s r (Some ["read"]) new_rw = Some (false, w) /\ status w = 401%Z) /\
  bearer r (access_of step2) /\ unsent new_rw.
Proof.
  split; [vm_compute; reflexivity|]. split; [eexists; split; [vm_compute; reflexivity|reflexivity]|].
  split; [eexists; split; [vm_compute; reflexivity|reflexivity]|].
  split; [apply case_bearer; vm_compute; discriminate|split; reflexivity].
Qed.

(** C28. The function modelling Authorize does not even return a server; that
    it only reads the shared maps is C28_concurrent. *)
Theorem C28_read_only : forall ev s r w,
  endpoint r "introspect" \/ (endpoint r "authorize" /\ rq_method r = "GET") \/ other_path r ->
  fst (serve_http ev s r w) = s.
Proof. exact c28_read_only. Qed.
Print Assumptions C28_read_only.

Example C28_case :
  endpoint (lookup_request "/oauth2/introspect" case_auth (access_of step2)) "introspect" /\
  (endpoint (case_get "/oauth2/authorize" "response_type=code&client_id=c1&redirect_uri=https://a.example/cb") "authorize" /\
   exists w, serve_http (case_env 1 rand1) case_server
     (case_get "/oauth2/authorize" "response_type=code&client_id=c1&redirect_uri=https://a.example/cb") new_rw = (case_server, Some w)).
Proof.
  split; [apply (case_endpoint _ _ "introspect")|]. split; [left; exists "/oauth2"; reflexivity|].
  eexists. vm_compute. reflexivity.
Qed.

(** C30. *)
Theorem C30_expires_in : forall ev s r s' t, handle ev s r = Done s' (OToken t) ->
  tr_expires_in t = Z.quot (cfg_access_lifespan (sv_config s)) second.
Proof. exact c30_expires_in. Qed.
Print Assumptions C30_expires_in.

(** The state [s''] is any later one in which the token's entry is as stored:
    what may change it is the subject of C36, C46 and C58. *)
Theorem C30_accepted_while_announced : forall ev s r s' t s'' r' required now w,
  handle ev s r = Done s' (OToken t) -> (0 <= cfg_access_lifespan (sv_config s))%Z ->
  sv_config s'' = sv_config s' ->
  (forall sg, names (server_secret s) (tr_access_token t) sg -> sv_access s'' !! sg = sv_access s' !! sg) ->
  bearer r' (tr_access_token t) -> covers (tr_scope t) required ->
  (now <= ev_now_access ev + tr_expires_in t * second)%Z ->
  unsent w -> authorize now s'' r' required w = Some (true, w).
Proof. exact c30_accepted. Qed.
Print Assumptions C30_accepted_while_announced.

Example C30_case : exists s' t, step2 = Done s' (OToken t) /\ tr_expires_in t = 3600%Z /\
  authorize (4601 * second) s' (bearer_request (tr_access_token t)) (Some ["read"]) new_rw = Some (true, new_rw).
Proof. eexists _, _. split; [vm_compute; reflexivity|]. split; [reflexivity|]. vm_compute. reflexivity. Qed.

(** C32. *)
Theorem C32_refresh_never_escalates : forall ev s r s' t,
  handle ev s r = Done s' (OToken t) -> endpoint r "token" -> body_param r "grant_type" = "refresh_token" ->
  exists d, refresh_token s (body_param r "refresh_token") d /\ from_client s r (cd_client_id d) /\
    (ev_now_check ev <= cd_expires_at d)%Z /\
    covers (cd_scope d) (tr_scope t) /\
    (items (parse_scope (body_param r "scope")) = [] -> tr_scope t = cd_scope d) /\
    (items (parse_scope (body_param r "scope")) <> [] -> tr_scope t = parse_scope (body_param r "scope")) /\
    (exists a, access_token s' (tr_access_token t) a /\ cd_client_id a = cd_client_id d /\
       cd_username a = cd_username d /\ cd_scope a = tr_scope t) /\
    (forall f, refresh_token s' (tr_refresh_token t) f -> cd_client_id f = cd_client_id d /\
       cd_username f = cd_username d /\ cd_scope f = tr_scope t) /\
    ((forall sg, names (server_secret s) (body_param r "refresh_token") sg -> ~ names (server_secret s) (tr_refresh_token t) sg) ->
       exists f, refresh_token s' (tr_refresh_token t) f) /\
    (forall f, ~ refresh_token s' (body_param r "refresh_token") f).
Proof. exact c32_refresh. Qed.
Print Assumptions C32_refresh_never_escalates.

Example C32_case : exists s' t, step3 = Done s' (OToken t) /\ tr_scope t = Some ["read"] /\
  endpoint (refresh_request case_auth (refresh_of step2)) "token" /\
  body_param (refresh_request case_auth (refresh_of step2)) "grant_type" = "refresh_token".
Proof.
  eexists _, _. split; [vm_compute; reflexivity|]. split; [reflexivity|].
  split; [apply (case_endpoint _ _ "token")|vm_compute; reflexivity].
Qed.

(** C35, one redemption; where the stored code comes from is C35_provenance. *)
Theorem C35_redemption : forall ev s r s' t,
  handle ev s r = Done s' (OToken t) -> endpoint r "token" -> body_param r "grant_type" = "authorization_code" ->
  exists d sg, auth_code s (body_param r "code") d /\ names (server_secret s) (body_param r "code") sg /\
    from_client s r (cd_client_id d) /\ cd_used d = false /\ (ev_now_check ev <= cd_expires_at d)%Z /\
    query_unescape (body_param r "redirect_uri") = Some (cd_redirect_uri d) /\ tr_scope t = cd_scope d /\
    (exists a, access_token s' (tr_access_token t) a /\ cd_client_id a = cd_client_id d /\
       cd_username a = cd_username d /\ cd_scope a = cd_scope d /\ cd_code a = sg) /\
    (exists f, refresh_token s' (tr_refresh_token t) f /\ cd_client_id f = cd_client_id d /\
       cd_username f = cd_username d /\ cd_scope f = cd_scope d /\ cd_code f = sg) /\
    auth_code s' (body_param r "code") (as_used d).
Proof. exact c35_redeem. Qed.
Print Assumptions C35_redemption.

Example C35_case : exists s' t, step2 = Done s' (OToken t) /\ tr_scope t = Some ["read"] /\
  body_param (redeem_request case_auth (code_of step1)) "grant_type" = "authorization_code" /\
  option_map cd_username (sv_access s' !! sig_of (access_of step2)) = Some "u1".
Proof.
  eexists _, _. split; [vm_compute; reflexivity|]. split; [reflexivity|]. split; vm_compute; reflexivity.
Qed.

(** C36. *)
Theorem C36_replay_revokes : forall ev s r id sg,
  complete_token_request r -> from_client s r id -> replays s r sg ->
  exists s', handle ev s r = Done s' (OError (InvalidGrant "unknown authorization code")) /\
    same_registry s s' /\ sv_codes s' = sv_codes s /\
    without_code sg (sv_access s) (sv_access s') /\ without_code sg (sv_refresh s) (sv_refresh s').
Proof. exact c36_replay. Qed.
Print Assumptions C36_replay_revokes.

Theorem C36_replay_refused : forall ev s r id sg,
  complete_token_request r -> from_client s r id -> replays s r sg ->
  exists s' w, serve_http ev s r new_rw = (s', Some w) /\ error_document w 400 "invalid_grant".
Proof. exact c36_answer. Qed.
Print Assumptions C36_replay_refused.

(** Go visits the entries of a map in any order while deleting. *)
Theorem C36_any_iteration_order : forall sg order m, Permutation order (map fst (map_to_list m)) ->
  without_code sg m (revoke_code_order sg order m).
Proof. exact c36_any_order. Qed.
Print Assumptions C36_any_iteration_order.

Example C36_case :
  let r := redeem_request case_auth (code_of step1) in
  complete_token_request r /\ from_client (after step2) r "c1" /\ replays (after step2) r (sig_of (code_of step1)) /\
  is_Some (sv_access (after step2) !! sig_of (access_of step2)) /\
  is_Some (sv_refresh (after step2) !! sig_of (refresh_of step2)) /\
  sv_access (after (handle (case_env 1003 rand3) (after step2) r)) !! sig_of (access_of step2) = None.
Proof.
  split; [apply case_redeem_complete; [reflexivity|left; reflexivity]|].
  split; [apply case_from; vm_compute; reflexivity|].
  split; [apply case_replays; left; reflexivity|].
  split; [eexists; vm_compute; reflexivity|]. split; [eexists; vm_compute; reflexivity|]. vm_compute. reflexivity.
Qed.

(** C38. *)
Theorem C38_effect_needs_authentication : forall ev s r s' o, handle ev s r = Done s' o ->
  endpoint r "token" \/ endpoint r "introspect" \/ endpoint r "revoke" ->
  (forall e, o <> OError e) \/ s' <> s -> exists id, from_client s r id.
Proof. exact c38_success. Qed.
Print Assumptions C38_effect_needs_authentication.

Theorem C38_success_needs_authentication : forall ev s r s' w, serve_http ev s r new_rw = (s', Some w) ->
  endpoint r "token" \/ endpoint r "introspect" \/ endpoint r "revoke" ->
  (status w < 400)%Z \/ s' <> s -> exists id, from_client s r id.
Proof. exact c38_wire. Qed.
Print Assumptions C38_success_needs_authentication.

Theorem C38_unauthenticated_refused : forall ev s r,
  complete_token_request r \/ complete_introspection r \/ complete_revocation r -> unauthenticated s r ->
  exists w, serve_http ev s r new_rw = (s, Some w) /\ error_document w 401 "invalid_client" /\
    header_values w "Www-Authenticate" = ["Basic realm=" +:+ quoted "OAuth2"].
Proof. exact c38_refused. Qed.
Print Assumptions C38_unauthenticated_refused.

Example C38_case :
  let r := redeem_request (basic_auth_header "c1" "guess") (code_of step1) in
  complete_token_request r /\ unauthenticated (after step1) r /\
  (exists id, from_client (after step1) (redeem_request case_auth (code_of step1)) id).
Proof.
  split; [|split].
  - split; [apply (case_endpoint _ _ "token")|]. split; [eexists; vm_compute; reflexivity|]. right; right; left. vm_compute. reflexivity.
  - intros id (secret & H1 & c & H2 & H3). vm_compute in H1. injection H1 as <- <-. vm_compute in H2. injection H2 as <-.
    specialize (H3 eq_refl). discriminate.
  - exists "c1". apply case_from; vm_compute; reflexivity.
Qed.

(** C39. *)
Theorem C39_public_clients : forall ev s r id secret c,
  endpoint r "token" -> body_param r "grant_type" = "client_credentials" ->
  client_credentials r = (id, secret) -> sv_clients s !! id = Some c -> en_confidential c = false ->
  exists w, serve_http ev s r new_rw = (s, Some w) /\
    (error_document w 401 "invalid_client" \/ error_document w 400 "invalid_request").
Proof. exact c39_public. Qed.
Print Assumptions C39_public_clients.

Example C39_case :
  endpoint (client_request case_auth2) "token" /\
  body_param (client_request case_auth2) "grant_type" = "client_credentials" /\
  client_credentials (client_request case_auth2) = ("c2", "") /\
  sv_clients case_server !! "c2" = Some case_public_client /\
  access_of (handle (case_env 1 rand1) case_server (client_request case_auth)) <> "".
Proof.
  split; [apply (case_endpoint _ _ "token")|]. split; [vm_compute; reflexivity|]. split; [vm_compute; reflexivity|].
  split; [vm_compute; reflexivity|]. vm_compute. discriminate.
Qed.

(** C41. *)
Theorem C41_no_refresh_token_stored : forall ev s r w, endpoint r "authorize" -> sv_refresh (fst (serve_http ev s r w)) = sv_refresh s.
Proof. exact c41_state. Qed.
Print Assumptions C41_no_refresh_token_stored.

(** With response type token the parameters are in the fragment ... *)
Theorem C41_fragment_without_refresh_token : forall ev s r s' w loc locs,
  serve_http ev s r new_rw = (s', Some w) -> header_values w "Location" = loc :: locs ->
  form_param r "response_type" = "token" ->
  rw_body w = "" /\
  exists uri, query_unescape (form_param r "redirect_uri") = Some uri /\
  (without "#" uri ->
   exists v, parse_query (fragment_of loc) = (v, true) /\ values_of v "refresh_token" = []).
Proof. exact c41_fragment. Qed.
Print Assumptions C41_fragment_without_refresh_token.

(** ... and otherwise in the query, where a refresh_token can only be one that
    the registered redirect URI itself carries. *)
Theorem C41_query_without_refresh_token : forall ev s r s' w loc locs,
  serve_http ev s r new_rw = (s', Some w) -> header_values w "Location" = loc :: locs ->
  form_param r "response_type" <> "token" ->
  rw_body w = "" /\
  exists uri, query_unescape (form_param r "redirect_uri") = Some uri /\
  (ascii_text uri -> without "#" uri -> uri <> "*" ->
   exists u u', parse_request_uri uri = Some u /\ parse_request_uri loc = Some u' /\
     values_of (url_query u') "refresh_token" = values_of (url_query u) "refresh_token").
Proof. exact c41_query. Qed.
Print Assumptions C41_query_without_refresh_token.

Example C41_case :
  (exists s' w loc, serve_http (case_env 1000 rand1) case_server (authorize_request "token" "xyz" "u1" "p1") new_rw = (s', Some w) /\
     header_values w "Location" = [loc]) /\
  (exists s' w loc, serve_http (case_env 1000 rand1) case_server (authorize_request "code" "xyz" "u1" "p1") new_rw = (s', Some w) /\
     header_values w "Location" = [loc]).
Proof. split; eexists _, _, _; (split; [vm_compute; reflexivity|reflexivity]). Qed.

(** C42. The second case is the replay of a code. The third needs a signature
    that is both an access token of the client and a refresh token of another
    one, so a random source that repeats a key. *)
Theorem C42_errors_have_no_effect : forall ev s r s' e, handle ev s r = Done s' (OError e) ->
  s' = s \/
  (exists sg, replays s r sg /\ same_registry s s' /\ sv_codes s' = sv_codes s /\
     without_code sg (sv_access s) (sv_access s') /\ without_code sg (sv_refresh s) (sv_refresh s')) \/
  (endpoint r "revoke" /\ exists id sg a f, from_client s r id /\ names (server_secret s) (body_param r "token") sg /\
     sv_access s !! sg = Some a /\ sv_refresh s !! sg = Some f /\ cd_client_id a = id /\ cd_client_id f <> id /\
     same_registry s s' /\ sv_codes s' = sv_codes s /\ sv_refresh s' = sv_refresh s /\ sv_access s' = delete sg (sv_access s)).
Proof. exact c42_error. Qed.
Print Assumptions C42_errors_have_no_effect.

Example C42_case : exists e, handle (case_env 1003 rand3) (after step2) (redeem_request case_auth "nonsense") = Done (after step2) (OError e).
Proof. eexists. vm_compute. reflexivity. Qed.

(** C43. *)
Theorem C43_failing_source : forall ev ev' s r w, less_random ev ev' ->
  serve_http ev' s r w = serve_http ev s r w \/ serve_http ev' s r w = (s, None).
Proof. exact c43_failing_source. Qed.
Print Assumptions C43_failing_source.

Theorem C43_no_key : forall ev s r, (Z.of_nat (slen (ev_rand ev)) < cfg_key_length (sv_config s))%Z ->
  handle ev s r = Panic s \/ exists s' o, handle ev s r = Done s' o /\
    (forall t, o <> OToken t) /\ (forall c, o <> OCode c).
Proof. exact c43_no_key. Qed.
Print Assumptions C43_no_key.

Theorem C43_no_second_key : forall ev s r s' t,
  (Z.of_nat (slen (ev_rand ev)) < 2 * cfg_key_length (sv_config s))%Z ->
  handle ev s r = Done s' (OToken t) -> tr_refresh_token t = "".
Proof. exact c43_no_second_key. Qed.
Print Assumptions C43_no_second_key.

Example C43_case :
  less_random (case_env 1001 rand2) (case_env 1001 "fedcba9876543210FEDC") /\
  handle (case_env 1001 "fedcba9876543210FEDC") (after step1) (redeem_request case_auth (code_of step1)) = Panic (after step1).
Proof.
  split; [|vm_compute; reflexivity]. split; [reflexivity|]. split; [reflexivity|]. split; [reflexivity|]. split; [reflexivity|].
  exists "BA9876543210". reflexivity.
Qed.

(** C44. False of the code: the owner of a code is not checked before its
    tokens are revoked, so that any client that learns a used code can revoke
    the tokens issued for it (C44_others_refuted). The partial theorem covers
    all other requests; the exact one says for every request that a replay is
    the only way, and that it only ends the tokens of the replayed code. *)
Theorem C44_others_partial : forall ev s r id k c,
  acts_for r id -> (forall sg, ~ replays s r sg) -> cd_client_id c <> id ->
  let s' := res_server (handle ev s r) in
  (sv_access s !! k = Some c -> sv_access s' !! k = Some c \/
     exists o, handle ev s r = Done s' o /\ hands_out_access (server_secret s) o k) /\
  (sv_refresh s !! k = Some c -> sv_refresh s' !! k = Some c \/
     exists o, handle ev s r = Done s' o /\ hands_out_refresh (server_secret s) o k) /\
  (sv_codes s !! k = Some c -> sv_codes s' !! k = Some c \/
     exists o, handle ev s r = Done s' o /\ hands_out_code (server_secret s) o k).
Proof. exact c44_others. Qed.
Print Assumptions C44_others_partial.

Theorem C44_others_exact : forall ev s r id k c,
  acts_for r id -> cd_client_id c <> id ->
  let s' := res_server (handle ev s r) in
  (sv_access s !! k = Some c -> sv_access s' !! k = Some c \/
     (exists o, handle ev s r = Done s' o /\ hands_out_access (server_secret s) o k) \/
     (sv_access s' !! k = None /\ replays s r (cd_code c))) /\
  (sv_refresh s !! k = Some c -> sv_refresh s' !! k = Some c \/
     (exists o, handle ev s r = Done s' o /\ hands_out_refresh (server_secret s) o k) \/
     (sv_refresh s' !! k = None /\ replays s r (cd_code c))) /\
  (sv_codes s !! k = Some c -> sv_codes s' !! k = Some c \/
     exists o, handle ev s r = Done s' o /\ hands_out_code (server_secret s) o k).
Proof. exact c44_exact. Qed.
Print Assumptions C44_others_exact.

Theorem C44_others_refuted : exists ev s r k c,
  s = after step2 /\ from_client s r "c2" /\ acts_for r "c2" /\
  sv_access s !! k = Some c /\ cd_client_id c = "c1" /\ sv_access (res_server (handle ev s r)) !! k = None.
Proof. exact c44_refuted. Qed.
Print Assumptions C44_others_refuted.

Example C44_case :
  let r := lookup_request "/oauth2/revoke" case_auth2 (access_of step2) in
  acts_for r "c2" /\ (forall sg, ~ replays (after step2) r sg) /\
  option_map cd_client_id (sv_access (after step2) !! sig_of (access_of step2)) = Some "c1".
Proof.
  split; [right; split; [rewrite endpoint_authorize; vm_compute; discriminate|vm_compute; reflexivity]|].
  split; [|vm_compute; reflexivity].
  intros sg (H & _). apply endpoint_token in H. vm_compute in H. discriminate.
Qed.

(** C46. *)
Theorem C46_owner_revokes : forall ev s r id sg, complete_revocation r -> from_client s r id ->
  names (server_secret s) (body_param r "token") sg ->
  (forall a, sv_access s !! sg = Some a -> cd_client_id a = id) ->
  (forall f, sv_refresh s !! sg = Some f -> cd_client_id f = id) ->
  exists s', handle ev s r = Done s' ORevoked /\ same_registry s s' /\ sv_codes s' = sv_codes s /\
    sv_access s' = delete sg (sv_access s) /\ sv_refresh s' = delete sg (sv_refresh s).
Proof. exact c46_own. Qed.
Print Assumptions C46_owner_revokes.

Theorem C46_only_the_named_token : forall ev s r k c, endpoint r "revoke" ->
  let s' := res_server (handle ev s r) in
  same_registry s s' /\ sv_codes s' = sv_codes s /\
  (forall x, sv_access s' !! k = Some x -> sv_access s !! k = Some x) /\
  (forall x, sv_refresh s' !! k = Some x -> sv_refresh s !! k = Some x) /\
  (sv_access s !! k = Some c -> sv_access s' !! k = None ->
     names (server_secret s) (body_param r "token") k /\ from_client s r (cd_client_id c)) /\
  (sv_refresh s !! k = Some c -> sv_refresh s' !! k = None ->
     names (server_secret s) (body_param r "token") k /\ from_client s r (cd_client_id c)).
Proof. exact c46_only. Qed.
Print Assumptions C46_only_the_named_token.

Theorem C46_unknown_token : forall ev s r id sg, complete_revocation r -> from_client s r id ->
  names (server_secret s) (body_param r "token") sg -> sv_access s !! sg = None -> sv_refresh s !! sg = None ->
  handle ev s r = Done s ORevoked.
Proof. exact c46_unknown. Qed.
Print Assumptions C46_unknown_token.

Theorem C46_repeated : forall ev ev' s r s', handle ev s r = Done s' ORevoked -> handle ev' s' r = Done s' ORevoked.
Proof. exact c46_again. Qed.
Print Assumptions C46_repeated.

Theorem C46_answer : forall ev s r s', handle ev s r = Done s' ORevoked ->
  exists w, serve_http ev s r new_rw = (s', Some w) /\ status w = 200%Z /\ rw_body w = "".
Proof. exact revoked_wire. Qed.
Print Assumptions C46_answer.

Example C46_case :
  let r := lookup_request "/oauth2/revoke" case_auth (refresh_of step2) in
  complete_revocation r /\ from_client (after step2) r "c1" /\
  names (server_secret (after step2)) (body_param r "token") (sig_of (refresh_of step2)) /\
  sv_access (after step2) !! sig_of (refresh_of step2) = None /\
  option_map cd_client_id (sv_refresh (after step2) !! sig_of (refresh_of step2)) = Some "c1".
Proof.
  split; [split; [apply (case_endpoint _ _ "revoke")|split; [eexists; vm_compute; reflexivity|left; vm_compute; reflexivity]]|].
  split; [apply case_from; vm_compute; reflexivity|].
  split; [|split; vm_compute; reflexivity].
  replace (server_secret (after step2)) with (cfg_secret case_config) by (vm_compute; reflexivity).
  replace (body_param (lookup_request "/oauth2/revoke" case_auth (refresh_of step2)) "token") with (refresh_of step2) by (vm_compute; reflexivity).
  apply case_names. vm_compute. discriminate.
Qed.

(** C47. *)
Theorem C47_introspection_answers : forall ev s r id sg, complete_introspection r -> from_client s r id ->
  names (server_secret s) (body_param r "token") sg ->
  (sv_access s !! sg = None -> sv_refresh s !! sg = None ->
     exists x, handle ev s r = Done s (OIntro x) /\ reports_nothing x) /\
  (forall a, sv_access s !! sg = Some a -> sv_refresh s !! sg = None -> cd_client_id a = id ->
     exists x, handle ev s r = Done s (OIntro x) /\ reports x "access_token" a) /\
  (forall f, sv_refresh s !! sg = Some f -> cd_client_id f = id ->
     (forall a, sv_access s !! sg = Some a -> cd_client_id a = id) ->
     exists x, handle ev s r = Done s (OIntro x) /\ reports x "refresh_token" f) /\
  (forall c, (sv_access s !! sg = Some c \/ sv_refresh s !! sg = Some c) -> cd_client_id c <> id ->
     handle ev s r = Done s (OError (InvalidClient "wrong client"))).
Proof. exact c47_answer. Qed.
Print Assumptions C47_introspection_answers.

Theorem C47_discloses_own_tokens_only : forall ev s r s' x, handle ev s r = Done s' (OIntro x) ->
  reports_nothing x \/
  exists c kind, from_client s r (cd_client_id c) /\ reports x kind c /\
    ((kind = "access_token" /\ access_token s (body_param r "token") c) \/
     (kind = "refresh_token" /\ refresh_token s (body_param r "token") c)).
Proof. exact c47_discloses. Qed.
Print Assumptions C47_discloses_own_tokens_only.

Example C47_case :
  let r := lookup_request "/oauth2/introspect" case_auth (access_of step2) in
  complete_introspection r /\ from_client (after step2) r "c1" /\
  option_map cd_client_id (sv_access (after step2) !! sig_of (access_of step2)) = Some "c1" /\
  exists x, handle (case_env 1002 rand3) (after step2) r = Done (after step2) (OIntro x) /\
    ir_active x = true /\ ir_username x = "u1" /\ ir_expires_at x = 4601%Z.
Proof.
  split; [split; [apply (case_endpoint _ _ "introspect")|split; [eexists; vm_compute; reflexivity|left; vm_compute; reflexivity]]|].
  split; [apply case_from; vm_compute; reflexivity|]. split; [vm_compute; reflexivity|].
  eexists. split; [vm_compute; reflexivity|]. split; [reflexivity|]. split; reflexivity.
Qed.

(** C48. False of the code: introspection does not look at the expiry
    (C48_active_refuted). The partial theorem is for instants not after the
    reported expiry; the exact one says when a token reported active is accepted:
    until an instant within the reported second. *)
Theorem C48_active_partial : forall ev s r s' x now r' required w,
  handle ev s r = Done s' (OIntro x) -> ir_active x = true -> ir_token_type x = "access_token" ->
  (now <= ir_expires_at x * 1000000000)%Z -> bearer r' (body_param r "token") -> covers (ir_scope x) required -> unsent w ->
  authorize now s r' required w = Some (true, w).
Proof. exact c48_active. Qed.
Print Assumptions C48_active_partial.

Theorem C48_active_exact : forall ev s r s' x,
  handle ev s r = Done s' (OIntro x) -> ir_active x = true -> ir_token_type x = "access_token" ->
  exists expires, (ir_expires_at x * 1000000000 <= expires < (ir_expires_at x + 1) * 1000000000)%Z /\
    forall now r' required w, bearer r' (body_param r "token") -> covers (ir_scope x) required -> unsent w ->
    (authorize now s r' required w = Some (true, w) <-> (now <= expires)%Z).
Proof. exact c48_exact. Qed.
Print Assumptions C48_active_exact.

Theorem C48_active_refuted : exists s r x w,
  s = after step2 /\ handle (case_env 4602 rand3) s r = Done s (OIntro x) /\
  ir_active x = true /\ ir_token_type x = "access_token" /\
  authorize (4602 * second) s (bearer_request (body_param r "token")) (ir_scope x) new_rw = Some (false, w).
Proof. exact c48_refuted. Qed.
Print Assumptions C48_active_refuted.

Example C48_case : exists s' x,
  handle (case_env 1002 rand3) (after step2) (lookup_request "/oauth2/introspect" case_auth (access_of step2)) = Done s' (OIntro x) /\
  ir_active x = true /\ ir_token_type x = "access_token" /\ (1002 * second <= ir_expires_at x * 1000000000)%Z /\
  covers (ir_scope x) (Some ["read"]).
Proof.
  eexists _, _. split; [vm_compute; reflexivity|]. split; [reflexivity|]. split; [reflexivity|].
  split; [vm_compute; discriminate|]. intros x Hx. exact Hx.
Qed.

(** C51. *)
Theorem C51_clients_and_secrets : forall ev1 ev2 s1 s2 r1 r2 w,
  complete_token_request r1 \/ complete_introspection r1 \/ complete_revocation r1 ->
  complete_token_request r2 \/ complete_introspection r2 \/ complete_revocation r2 ->
  unauthenticated s1 r1 -> unauthenticated s2 r2 ->
  snd (serve_http ev1 s1 r1 w) = snd (serve_http ev2 s2 r2 w).
Proof. exact c51_clients. Qed.
Print Assumptions C51_clients_and_secrets.

Theorem C51_any_request : forall ev1 ev2 s1 s2 r w,
  endpoint r "token" \/ endpoint r "introspect" \/ endpoint r "revoke" ->
  unauthenticated s1 r -> unauthenticated s2 r -> snd (serve_http ev1 s1 r w) = snd (serve_http ev2 s2 r w).
Proof. exact c51_client_state. Qed.
Print Assumptions C51_any_request.

Theorem C51_users_and_passwords : forall ev1 ev2 s1 s2 r1 r2 id1 id2 w,
  complete_token_request r1 -> complete_token_request r2 -> from_client s1 r1 id1 -> from_client s2 r2 id2 ->
  body_param r1 "grant_type" = "password" -> body_param r2 "grant_type" = "password" ->
  ~ password_of s1 (body_param r1 "username") (body_param r1 "password") ->
  ~ password_of s2 (body_param r2 "username") (body_param r2 "password") ->
  snd (serve_http ev1 s1 r1 w) = snd (serve_http ev2 s2 r2 w).
Proof. exact c51_passwords. Qed.
Print Assumptions C51_users_and_passwords.

Theorem C51_authorization_endpoint : forall ev1 ev2 s1 s2 r1 r2 w,
  endpoint r1 "authorize" -> endpoint r2 "authorize" -> rq_method r1 = rq_method r2 ->
  parse_authorization_request r1 = parse_authorization_request r2 ->
  sv_config s1 = sv_config s2 -> sv_clients s1 = sv_clients s2 ->
  ~ password_of s1 (body_param r1 "username") (body_param r1 "password") ->
  ~ password_of s2 (body_param r2 "username") (body_param r2 "password") ->
  snd (serve_http ev1 s1 r1 w) = snd (serve_http ev2 s2 r2 w).
Proof. exact c51_authorization. Qed.
Print Assumptions C51_authorization_endpoint.

Example C51_case :
  let r1 := password_request (basic_auth_header "c1" "guess") "read" in
  let r2 := password_request (basic_auth_header "nobody" "s1") "read" in
  complete_token_request r1 /\ complete_token_request r2 /\ unauthenticated case_server r1 /\ unauthenticated case_server r2 /\
  (exists w, snd (serve_http (case_env 1 rand1) case_server r1 new_rw) = Some w /\ status w = 401%Z) /\
  ~ password_of case_server "u1" "guess" /\ ~ password_of case_server "nobody" "p1".
Proof.
  split; [split; [apply (case_endpoint _ _ "token")|split; [eexists; vm_compute; reflexivity|left; vm_compute; reflexivity]]|].
  split; [split; [apply (case_endpoint _ _ "token")|split; [eexists; vm_compute; reflexivity|left; vm_compute; reflexivity]]|].
  split; [intros id (secret & Hx1 & c & Hx2 & Hx3); vm_compute in Hx1; injection Hx1 as <- <-; vm_compute in Hx2; injection Hx2 as <-;
          specialize (Hx3 eq_refl); discriminate|].
  split; [intros id (secret & Hx1 & c & Hx2 & Hx3); vm_compute in Hx1; injection Hx1 as <- <-; vm_compute in Hx2; discriminate|].
  split; [eexists; split; [vm_compute; reflexivity|reflexivity]|].
  split; [intros (u & Hx1 & Hx2); vm_compute in Hx1; injection Hx1 as <-; discriminate|].
  intros (u & Hx1 & Hx2). vm_compute in Hx1. discriminate.
Qed.

(** C52. *)
Theorem C52_last_segment_only : forall ev s r p w,
  (forall name, In name ["authorize"; "token"; "introspect"; "revoke"] -> endpoint r name <-> endpoint (with_path r p) name) ->
  serve_http ev s (with_path r p) w = serve_http ev s r w.
Proof. exact c52_path. Qed.
Print Assumptions C52_last_segment_only.

Theorem C52_dispatch : forall ev s r,
  (endpoint r "authorize" -> handle ev s r = authorization_endpoint ev s r) /\
  (endpoint r "token" -> handle ev s r = token_endpoint ev s r) /\
  (endpoint r "introspect" -> handle ev s r = introspection_endpoint s r) /\
  (endpoint r "revoke" -> handle ev s r = revocation_endpoint s r).
Proof. exact c52_dispatch. Qed.
Print Assumptions C52_dispatch.

Theorem C52_not_found : forall ev s r, other_path r ->
  exists w, serve_http ev s r new_rw = (s, Some w) /\ status w = 404%Z.
Proof. exact c52_not_found. Qed.
Print Assumptions C52_not_found.

Example C52_case :
  endpoint (case_get "/any/path/token" "") "token" /\ endpoint (case_get "token" "") "token" /\
  ~ endpoint (case_get "/any/path/tokens" "") "token" /\ other_path (case_get "/token/" "").
Proof.
  split; [left; exists "/any/path"; reflexivity|]. split; [right; reflexivity|].
  split; [rewrite endpoint_token; vm_compute; discriminate|]. apply other_path_spec. vm_compute. repeat split; discriminate.
Qed.

(** C54. *)
Theorem C54_always_answered : forall ev s r,
  (exists s' w code h, serve_http ev s r new_rw = (s', Some w) /\ rw_sent w = Some (code, h) /\
     In code [200; 303; 400; 401; 403; 404]%Z) \/
  (serve_http ev s r new_rw = (s, None) /\
    (cfg_key_length (sv_config s) < 0 \/ Z.of_nat (String.length (ev_rand ev)) < 2 * cfg_key_length (sv_config s))%Z).
Proof. exact c54_answer. Qed.
Print Assumptions C54_always_answered.

Theorem C54_authorize_answers : forall now s r required w, unsent w ->
  exists b w', authorize now s r required w = Some (b, w') /\ (b = true -> w' = w) /\
    (b = false -> exists code h, rw_sent w' = Some (code, h) /\ In code [400; 401; 403]%Z).
Proof. exact c54_authorize. Qed.
Print Assumptions C54_authorize_answers.

Example C54_case : exists w, snd (serve_http (case_env 1 "") case_server (case_get "" "%") new_rw) = Some w /\ status w = 404%Z.
Proof. eexists. split; [vm_compute; reflexivity|reflexivity]. Qed.

(** C58. *)
Theorem C58_others_undisturbed : forall ev s r s' o, handle ev s r = Done s' o ->
  (exists t, o = OToken t) \/ (exists c, o = OCode c) ->
  same_registry s s' /\
  (forall k, ~ hands_out_access (server_secret s) o k -> sv_access s' !! k = sv_access s !! k) /\
  (forall k, ~ hands_out_refresh (server_secret s) o k -> sv_refresh s' !! k = sv_refresh s !! k \/
     (endpoint r "token" /\ body_param r "grant_type" = "refresh_token" /\
      names (server_secret s) (body_param r "refresh_token") k /\ sv_refresh s' !! k = None)) /\
  (forall k, ~ hands_out_code (server_secret s) o k -> sv_codes s' !! k = sv_codes s !! k \/
     (endpoint r "token" /\ body_param r "grant_type" = "authorization_code" /\
      names (server_secret s) (body_param r "code") k /\
      exists d, sv_codes s !! k = Some d /\ cd_used d = false /\ sv_codes s' !! k = Some (as_used d))).
Proof. exact c58_frame. Qed.
Print Assumptions C58_others_undisturbed.

Theorem C58_new_tokens_stored : forall ev s r s' t, handle ev s r = Done s' (OToken t) ->
  exists a, access_token s' (tr_access_token t) a /\ acts_for r (cd_client_id a) /\ cd_scope a = tr_scope t /\
    cd_expires_at a = (ev_now_access ev + cfg_access_lifespan (sv_config s))%Z /\
    (tr_refresh_token t <> "" -> (forall d, ~ refresh_token s (tr_refresh_token t) d) ->
     exists f, refresh_token s' (tr_refresh_token t) f /\ cd_client_id f = cd_client_id a /\
       cd_username f = cd_username a /\ cd_scope f = tr_scope t /\ cd_code f = cd_code a /\
       cd_expires_at f = (ev_now_refresh ev + cfg_refresh_lifespan (sv_config s))%Z).
Proof. exact c58_tokens. Qed.
Print Assumptions C58_new_tokens_stored.

Theorem C58_new_code_stored : forall ev s r s' c, handle ev s r = Done s' (OCode c) ->
  exists d, auth_code s' (cr_code c) d /\ acts_for r (cd_client_id d) /\ cd_username d = body_param r "username" /\
    cd_scope d = parse_scope (form_param r "scope") /\
    query_unescape (form_param r "redirect_uri") = Some (cd_redirect_uri d) /\ cd_used d = false /\
    cd_expires_at d = (ev_now_code ev + cfg_code_lifespan (sv_config s))%Z.
Proof. exact c58_code. Qed.
Print Assumptions C58_new_code_stored.

Example C58_case :
  (exists s' t, step3 = Done s' (OToken t) /\
     sv_access s' !! sig_of (access_of step2) = sv_access (after step2) !! sig_of (access_of step2) /\
     sv_refresh s' !! sig_of (refresh_of step2) = None) /\
  exists s' c, step1 = Done s' (OCode c).
Proof.
  split; [|eexists _, _; vm_compute; reflexivity].
  eexists _, _. split; [vm_compute; reflexivity|]. split; vm_compute; reflexivity.
Qed.

(** C59. *)
Theorem C59_password_grant : forall ev s r id, complete_token_request r -> from_client s r id ->
  body_param r "grant_type" = "password" ->
  (exists s' t, handle ev s r = Done s' (OToken t)) <->
  (password_of s (body_param r "username") (body_param r "password") /\
   covers (cfg_allowed_scope (sv_config s)) (parse_scope (body_param r "scope")) /\ enough_random ev s 2).
Proof. exact c59_password. Qed.
Print Assumptions C59_password_grant.

Theorem C59_client_credentials_grant : forall ev s r id, complete_token_request r -> from_client s r id ->
  body_param r "grant_type" = "client_credentials" ->
  (exists s' t, handle ev s r = Done s' (OToken t)) <->
  ((exists c, sv_clients s !! id = Some c /\ en_confidential c = true) /\
   covers (cfg_allowed_scope (sv_config s)) (parse_scope (body_param r "scope")) /\ enough_random ev s 2).
Proof. exact c59_client_credentials. Qed.
Print Assumptions C59_client_credentials_grant.

Theorem C59_authorization_code_grant : forall ev s r id, complete_token_request r -> from_client s r id ->
  body_param r "grant_type" = "authorization_code" ->
  (exists s' t, handle ev s r = Done s' (OToken t)) <->
  ((exists d, auth_code s (body_param r "code") d /\ cd_used d = false /\ (ev_now_check ev <= cd_expires_at d)%Z /\
     cd_client_id d = id /\ query_unescape (body_param r "redirect_uri") = Some (cd_redirect_uri d)) /\
   enough_random ev s 2).
Proof. exact c59_code. Qed.
Print Assumptions C59_authorization_code_grant.

Theorem C59_refresh_token_grant : forall ev s r id, complete_token_request r -> from_client s r id ->
  body_param r "grant_type" = "refresh_token" ->
  (exists s' t, handle ev s r = Done s' (OToken t)) <->
  ((exists d, refresh_token s (body_param r "refresh_token") d /\ (ev_now_check ev <= cd_expires_at d)%Z /\
     cd_client_id d = id /\ covers (cd_scope d) (parse_scope (body_param r "scope"))) /\
   enough_random ev s 2).
Proof. exact c59_refresh. Qed.
Print Assumptions C59_refresh_token_grant.

Theorem C59_implicit_authorization : forall ev s r, complete_authorization s r -> rq_method r = "POST" ->
  form_param r "response_type" = "token" ->
  (exists s' t, handle ev s r = Done s' (OToken t)) <->
  (password_of s (body_param r "username") (body_param r "password") /\
   covers (cfg_allowed_scope (sv_config s)) (parse_scope (form_param r "scope")) /\ enough_random ev s 1).
Proof. exact c59_implicit. Qed.
Print Assumptions C59_implicit_authorization.

Theorem C59_code_authorization : forall ev s r, complete_authorization s r -> rq_method r = "POST" ->
  form_param r "response_type" = "code" ->
  (exists s' c, handle ev s r = Done s' (OCode c)) <->
  (password_of s (body_param r "username") (body_param r "password") /\
   covers (cfg_allowed_scope (sv_config s)) (parse_scope (form_param r "scope")) /\ enough_random ev s 1).
Proof. exact c59_authorization_code. Qed.
Print Assumptions C59_code_authorization.

Example C59_case :
  complete_token_request (password_request case_auth "read") /\
  from_client case_server (password_request case_auth "read") "c1" /\
  body_param (password_request case_auth "read") "grant_type" = "password" /\
  enough_random (case_env 1 rand1) case_server 2 /\
  access_of (handle (case_env 1 rand1) case_server (password_request case_auth "read")) <> "" /\
  access_of (handle (case_env 1 rand1) case_server (password_request case_auth "read admin")) = "" /\
  complete_authorization case_server (authorize_request "code" "xyz" "u1" "p1").
Proof.
  split; [split; [apply (case_endpoint _ _ "token")|split; [eexists; vm_compute; reflexivity|left; vm_compute; reflexivity]]|].
  split; [apply case_from; vm_compute; reflexivity|]. split; [vm_compute; reflexivity|].
  split; [vm_compute; split; discriminate|]. split; [vm_compute; discriminate|]. split; [vm_compute; reflexivity|].
  split; [apply (case_endpoint _ _ "authorize")|]. split; [eexists; vm_compute; reflexivity|].
  split; [right; left; vm_compute; reflexivity|]. exists case_client. split; vm_compute; reflexivity.
Qed.
