(** C67 - C70: what the answers of a server depend on, what it remembers, and
    complete flows. *)
From Verif.Model Require Import Server History Client.
From Verif.Spec Require Import TokenSpec ScopeSpec WireSpec RequestSpec ServerSpec HistorySpec ClientSpec FlowSpec Cases HistoryCases ClientCases FlowCases.
From Verif.Proof Require Import CaseProofs HistoryProofs HistoryCase ClientCase FlowProofs FlowCase CodeFlow CodeFlowCase.

#[local] Opaque handle parse_token.

(** C67. *)
Theorem C67_only_comparisons : forall cfg l1 l2, Forall2 (twin l1) l1 l2 -> answers (new_server cfg) l1 = answers (new_server cfg) l2.
Proof. exact c67_secrets. Qed.
Print Assumptions C67_only_comparisons.

Theorem C67_unguessed_secret : forall cfg l1 l2 id e p,
  (forall q, tried_secret (l1 ++ l2) id q -> q <> en_secret e /\ q <> p) ->
  answers (new_server cfg) (l1 ++ SetClient id e :: l2) =
  answers (new_server cfg) (l1 ++ SetClient id {| en_secret := p; en_redirect_uri := en_redirect_uri e; en_confidential := en_confidential e |} :: l2).
Proof. exact c67_unguessed. Qed.
Print Assumptions C67_unguessed_secret.

Example C67_case :
  Forall2 (twin (secret_calls case_client)) (secret_calls case_client) (secret_calls other_client) /\
  secret_calls case_client <> secret_calls other_client /\ tried_secret (secret_calls case_client) "c1" "guess" /\
  exists e t, answers (new_server case_config) (secret_calls case_client) =
    [Silent; Silent; Silent; Answered (OError e); Answered (OToken t)] /\ e_name e = "invalid_client".
Proof.
  split; [exact secret_twins|]. split; [discriminate|]. split.
  - eexists _, _. split; [do 3 right; by left|exact guess_credentials].
  - eexists _, _. split; [vm_compute; reflexivity|reflexivity].
Qed.

(** C68. *)
Theorem C68_memory_bound : forall cfg l s n m, history cfg l s -> counts answered_with_token l n -> counts answered_with_code l m ->
  (size (sv_access s) <= n)%nat /\ (size (sv_refresh s) <= n)%nat /\ (size (sv_codes s) <= m)%nat.
Proof. exact c68_bound. Qed.
Print Assumptions C68_memory_bound.

Theorem C68_kept_until_ended : forall cfg l s sg, history cfg l s ->
  (is_Some (sv_access s !! sg) <-> exists ev r t, still_access (cfg_secret cfg) l sg ev r t) /\
  (is_Some (sv_refresh s !! sg) <-> exists ev r t, still_refresh (cfg_secret cfg) l sg ev r t) /\
  (is_Some (sv_codes s !! sg) <-> exists x, In x l /\ issues_code (cfg_secret cfg) x sg).
Proof. exact c68_kept. Qed.
Print Assumptions C68_kept_until_ended.

Example C68_case : history case_config history2 (after step2) /\
  (size (sv_access (after step2)) = 1 /\ size (sv_refresh (after step2)) = 1 /\ size (sv_codes (after step2)) = 1)%nat /\
  counts answered_with_token history2 1 /\ counts answered_with_code history2 1.
Proof.
  split; [exact case_history2|]. split; [split_and!; vm_compute; reflexivity|]. split; [exact case_token_count|exact case_code_count].
Qed.

(** C69. *)
Theorem C69_clients_are_isolated : forall cfg id l own,
  interleaved id (new_server cfg) l own -> answers (new_server cfg) (map fst own) = map snd own.
Proof. exact c69_isolation. Qed.
Print Assumptions C69_clients_are_isolated.

Example C69_case : exists own,
  interleaved "c1" (new_server case_config) (setup_ops ++ [first_op; second_op; between_op; last_op]) own /\
  map fst own = setup_ops ++ [first_op; second_op; last_op].
Proof. exact case_interleaved. Qed.

(** The condition on foreign credentials is needed: "c2" learns that a token of
    "c1" exists. *)
Example C69_condition_needed :
  (exists x, handle (case_env 1002 rand3) case_server (lookup_request "/oauth2/introspect" case_auth2 (access_of step2)) =
     Done case_server (OIntro x) /\ ir_active x = false) /\
  exists e, handle (case_env 1002 rand3) (after step2) (lookup_request "/oauth2/introspect" case_auth2 (access_of step2)) =
     Done (after step2) (OError e) /\ e_description e = "wrong client".
Proof. split; eexists; (split; [vm_compute; reflexivity|reflexivity]). Qed.

(** C70. The code flow: the code arrives at the redirect URI; whatever happens
    in between, the client can exchange it; whatever happens after that, the
    access token is accepted and the refresh token can be exchanged. *)
Theorem C70_code_flow : forall cfg l0 s0 ev0 r0 cl,
  history cfg l0 s0 -> config_texts cfg -> (0 <= cfg_access_lifespan cfg)%Z ->
  complete_authorization s0 r0 -> rq_method r0 = "POST" -> form_param r0 "response_type" = "code" ->
  password_of s0 (body_param r0 "username") (body_param r0 "password") ->
  covers (cfg_allowed_scope cfg) (parse_scope (form_param r0 "scope")) -> enough_random ev0 s0 1 ->
  sv_clients s0 !! form_param r0 "client_id" = Some cl ->
  ascii_text (en_redirect_uri cl) -> without "#" (en_redirect_uri cl) -> en_redirect_uri cl <> "*" ->
  exists s0' w loc u u' code k,
  serve_http ev0 s0 r0 new_rw = (s0', Some w) /\ status w = 303%Z /\ header_values w "Location" = [loc] /\
  parse_request_uri (en_redirect_uri cl) = Some u /\ parse_request_uri loc = Some u' /\ same_target u u' /\ without "#" loc /\
  values_of (url_query u') "code" = values_of (url_query u) "code" ++ [code] /\
  values_of (url_query u') "state" = values_of (url_query u) "state" ++ echo (form_param r0 "state") /\
  names (cfg_secret cfg) code k /\
  forall l1 s1 ev1 c1 q1 r1, run s0' l1 s1 -> untouched (cfg_secret cfg) l1 k ->
  token_call ev1 s1 c1 q1 r1 -> tq_grant_type q1 = "authorization_code" -> tq_code q1 = code ->
  tq_client_id q1 = form_param r0 "client_id" -> tq_redirect_uri q1 = en_redirect_uri cl ->
  authenticates s1 (tq_client_id q1) (tq_client_secret q1) ->
  (ev_now_check ev1 <= ev_now_code ev0 + cfg_code_lifespan cfg)%Z -> enough_random ev1 s1 2 ->
  exists t a f, client_authenticate c1 (connected ev1 s1) q1 = inl t /\
  items (tr_scope t) = items (parse_scope (form_param r0 "scope")) /\
  names (cfg_secret cfg) (tr_access_token t) a /\ names (cfg_secret cfg) (tr_refresh_token t) f /\
  forall l2 s2, run (fst (serve_http ev1 s1 r1 new_rw)) l2 s2 -> untouched (cfg_secret cfg) l2 k ->
  (untouched (cfg_secret cfg) l2 a ->
   forall r required now w, bearer r (tr_access_token t) -> covers (tr_scope t) required ->
   (now <= ev_now_access ev1 + tr_expires_in t * second)%Z -> authorize now s2 r required w = Some (true, w)) /\
  (untouched (cfg_secret cfg) l2 f ->
   forall ev2 c2 q2 r2, token_call ev2 s2 c2 q2 r2 -> tq_grant_type q2 = "refresh_token" ->
   tq_refresh_token q2 = tr_refresh_token t -> tq_client_id q2 = tq_client_id q1 ->
   authenticates s2 (tq_client_id q2) (tq_client_secret q2) -> covers (tr_scope t) (tq_scope q2) ->
   (ev_now_check ev2 <= ev_now_refresh ev1 + cfg_refresh_lifespan cfg)%Z -> enough_random ev2 s2 2 ->
   exists t', client_authenticate c2 (connected ev2 s2) q2 = inl t').
Proof. exact c70_flow. Qed.
Print Assumptions C70_code_flow.

(** The same for a token obtained by any grant. *)
Theorem C70_access_token_lasts : forall cfg l s ev c q r t sg, history cfg l s -> config_texts cfg -> token_call ev s c q r ->
  client_authenticate c (connected ev s) q = inl t -> names (cfg_secret cfg) (tr_access_token t) sg ->
  forall l' s', run (fst (serve_http ev s r new_rw)) l' s' -> untouched (cfg_secret cfg) l' sg ->
  (forall k, names (cfg_secret cfg) (tq_code q) k -> untouched (cfg_secret cfg) l' k) ->
  forall r' required now w, (0 <= cfg_access_lifespan cfg)%Z -> bearer r' (tr_access_token t) -> covers (tr_scope t) required ->
  (now <= ev_now_access ev + tr_expires_in t * second)%Z -> authorize now s' r' required w = Some (true, w).
Proof. exact c70_access. Qed.
Print Assumptions C70_access_token_lasts.

Theorem C70_refresh_token_lasts : forall cfg l s ev c q r t sg, history cfg l s -> config_texts cfg -> token_call ev s c q r ->
  client_authenticate c (connected ev s) q = inl t -> names (cfg_secret cfg) (tr_refresh_token t) sg ->
  (tq_grant_type q = "refresh_token" -> ~ names (cfg_secret cfg) (tq_refresh_token q) sg) ->
  forall l' s', run (fst (serve_http ev s r new_rw)) l' s' -> untouched (cfg_secret cfg) l' sg ->
  (forall k, names (cfg_secret cfg) (tq_code q) k -> untouched (cfg_secret cfg) l' k) ->
  forall ev' c' q' r', token_call ev' s' c' q' r' -> tq_grant_type q' = "refresh_token" ->
  tq_refresh_token q' = tr_refresh_token t -> tq_client_id q' = tq_client_id q ->
  authenticates s' (tq_client_id q') (tq_client_secret q') -> covers (tr_scope t) (tq_scope q') ->
  (ev_now_check ev' <= ev_now_refresh ev + cfg_refresh_lifespan cfg)%Z -> enough_random ev' s' 2 ->
  exists t', client_authenticate c' (connected ev' s') q' = inl t'.
Proof. exact c70_refresh. Qed.
Print Assumptions C70_refresh_token_lasts.

Theorem C70_implicit_flow : forall cfg l0 s0 ev0 r0 cl,
  history cfg l0 s0 -> (0 <= cfg_access_lifespan cfg)%Z ->
  complete_authorization s0 r0 -> rq_method r0 = "POST" -> form_param r0 "response_type" = "token" ->
  password_of s0 (body_param r0 "username") (body_param r0 "password") ->
  covers (cfg_allowed_scope cfg) (parse_scope (form_param r0 "scope")) -> enough_random ev0 s0 1 ->
  sv_clients s0 !! form_param r0 "client_id" = Some cl -> without "#" (en_redirect_uri cl) ->
  exists s0' w loc v token seconds a,
  serve_http ev0 s0 r0 new_rw = (s0', Some w) /\ status w = 303%Z /\ header_values w "Location" = [loc] /\
  parse_query (fragment_of loc) = (v, true) /\
  values_of v "access_token" = [token] /\ values_of v "token_type" = ["bearer"] /\
  values_of v "expires_in" = [itoa seconds] /\ values_of v "refresh_token" = [] /\
  values_of v "state" = map percent_encoded (echo (form_param r0 "state")) /\
  names (cfg_secret cfg) token a /\
  forall l1 s1, run s0' l1 s1 -> untouched (cfg_secret cfg) l1 a ->
  forall r required now w, bearer r token -> covers (parse_scope (form_param r0 "scope")) required ->
  (now <= ev_now_access ev0 + seconds * second)%Z -> authorize now s1 r required w = Some (true, w).
Proof. exact c70_implicit. Qed.
Print Assumptions C70_implicit_flow.

Example C70_case :
  (history case_config setup case_server /\ config_texts case_config /\ (0 <= cfg_access_lifespan case_config)%Z) /\
  (forall kind, In kind ["code"; "token"] ->
   let r0 := authorize_request kind "xyz" "u1" "p1" in
   complete_authorization case_server r0 /\ rq_method r0 = "POST" /\ form_param r0 "response_type" = kind /\
   password_of case_server (body_param r0 "username") (body_param r0 "password") /\
   covers (cfg_allowed_scope case_config) (parse_scope (form_param r0 "scope")) /\
   enough_random (case_env 1000 rand1) case_server 1 /\ sv_clients case_server !! form_param r0 "client_id" = Some case_client) /\
  (ascii_text (en_redirect_uri case_client) /\ without "#" (en_redirect_uri case_client) /\ en_redirect_uri case_client <> "*") /\
  (run (after step1) [step_of (after step1) meantime_op] (after meantime) /\ access_of meantime <> "" /\
   untouched (cfg_secret case_config) [step_of (after step1) meantime_op] (sig_of (code_of step1))) /\
  (exists r, token_call (case_env 1002 rand2) (after meantime) case_client_config code_query r) /\
  authenticates (after meantime) "c1" "s1" /\
  (ev_now_check (case_env 1002 rand2) <= ev_now_code (case_env 1000 rand1) + cfg_code_lifespan case_config)%Z /\
  enough_random (case_env 1002 rand2) (after meantime) 2.
Proof.
  split; [split; [exact case_setup|split; [exact case_config_texts|vm_compute; discriminate]]|].
  split; [intros kind Hkind r0; exact (authorization_ok kind Hkind)|].
  split; [exact redirect_ok|]. split; [split; [exact meantime_run|split; [exact meantime_token|exact meantime_untouched]]|].
  split; [exact code_call|]. split; [exact code_client|]. split; [vm_compute; discriminate|]. split; vm_compute; discriminate.
Qed.
