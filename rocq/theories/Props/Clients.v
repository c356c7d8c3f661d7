(** C55-C57, C62, C63 and C71: what travels between client and server. *)
From Coq Require Import QArith.
From Verif.Model Require Import Server Client History.
From Verif.Spec Require Import ScopeSpec WireSpec RequestSpec ServerSpec HistorySpec ClientSpec Cases HistoryCases ClientCases.
From Verif.Proof Require Import ServerFacts CodecProofs CutProofs ClientProofs HistoryCase ClientCase.

#[local] Opaque handle parse_token.

(** C55. The client gets what the server answered. *)
Theorem C55_authenticate : forall cfg l s ev c q r s' w, history cfg l s -> config_texts cfg -> token_call ev s c q r ->
  serve_http ev s r new_rw = (s', Some w) ->
  (exists t t', handle ev s r = Done s' (OToken t) /\ client_authenticate c (connected ev s) q = inl t' /\ same_token t t') \/
  (exists e e', handle ev s r = Done s' (OError e) /\ client_authenticate c (connected ev s) q = inr (GErr e') /\ same_error e e').
Proof. exact c55_authenticate. Qed.
Print Assumptions C55_authenticate.

Theorem C55_introspect : forall cfg l s ev c q r s' w, history cfg l s -> config_texts cfg -> credential_texts s ->
  introspection_call ev s c q r -> serve_http ev s r new_rw = (s', Some w) ->
  (exists x x', handle ev s r = Done s' (OIntro x) /\ client_introspect c (connected ev s) q = inl x' /\ same_introspection x x') \/
  (exists e e', handle ev s r = Done s' (OError e) /\ client_introspect c (connected ev s) q = inr (GErr e') /\ same_error e e').
Proof. exact c55_introspect. Qed.
Print Assumptions C55_introspect.

Theorem C55_revoke : forall s ev c q r s' w, revocation_call ev s c q r -> serve_http ev s r new_rw = (s', Some w) ->
  (handle ev s r = Done s' ORevoked /\ client_revoke c (connected ev s) q = None) \/
  (exists e e', handle ev s r = Done s' (OError e) /\ client_revoke c (connected ev s) q = Some (GErr e') /\ same_error e e').
Proof. exact c55_revoke. Qed.
Print Assumptions C55_revoke.

Theorem C55_panic : forall s ev c q r, build_token_request (cc_base_uri c +:+ cc_token_endpoint c) q = Some r ->
  snd (serve_http ev s r new_rw) = None -> client_authenticate c (connected ev s) q = inr GOther.
Proof. exact c55_panic. Qed.
Print Assumptions C55_panic.

(** When Authenticate succeeds, in terms of its arguments and the server. *)
Theorem C55_password : forall cfg l s ev c q r, history cfg l s -> config_texts cfg -> token_call ev s c q r ->
  tq_grant_type q = "password" ->
  (exists t, client_authenticate c (connected ev s) q = inl t) <->
  authenticates s (tq_client_id q) (tq_client_secret q) /\
  password_of s (tq_username q) (tq_password q) /\ covers (cfg_allowed_scope cfg) (tq_scope q) /\ enough_random ev s 2.
Proof. exact c55_password. Qed.
Print Assumptions C55_password.

Theorem C55_client_credentials : forall cfg l s ev c q r, history cfg l s -> config_texts cfg -> token_call ev s c q r ->
  tq_grant_type q = "client_credentials" ->
  (exists t, client_authenticate c (connected ev s) q = inl t) <->
  authenticates s (tq_client_id q) (tq_client_secret q) /\
  (exists cl, sv_clients s !! tq_client_id q = Some cl /\ en_confidential cl = true) /\
  covers (cfg_allowed_scope cfg) (tq_scope q) /\ enough_random ev s 2.
Proof. exact c55_client_credentials. Qed.
Print Assumptions C55_client_credentials.

Theorem C55_authorization_code : forall cfg l s ev c q r, history cfg l s -> config_texts cfg -> token_call ev s c q r ->
  tq_grant_type q = "authorization_code" ->
  (exists t, client_authenticate c (connected ev s) q = inl t) <->
  authenticates s (tq_client_id q) (tq_client_secret q) /\
  (exists d, auth_code s (tq_code q) d /\ cd_used d = false /\ (ev_now_check ev <= cd_expires_at d)%Z /\
     cd_client_id d = tq_client_id q /\ cd_redirect_uri d = tq_redirect_uri q) /\ enough_random ev s 2.
Proof. exact c55_code. Qed.
Print Assumptions C55_authorization_code.

Theorem C55_refresh_token : forall cfg l s ev c q r, history cfg l s -> config_texts cfg -> token_call ev s c q r ->
  tq_grant_type q = "refresh_token" ->
  (exists t, client_authenticate c (connected ev s) q = inl t) <->
  authenticates s (tq_client_id q) (tq_client_secret q) /\
  (exists d, refresh_token s (tq_refresh_token q) d /\ (ev_now_check ev <= cd_expires_at d)%Z /\
     cd_client_id d = tq_client_id q /\ covers (cd_scope d) (tq_scope q)) /\ enough_random ev s 2.
Proof. exact c55_refresh. Qed.
Print Assumptions C55_refresh_token.

Theorem C55_other_grants : forall cfg l s ev c q r t, history cfg l s -> config_texts cfg -> token_call ev s c q r ->
  client_authenticate c (connected ev s) q = inl t -> In (tq_grant_type q) grant_types.
Proof. exact c55_other. Qed.
Print Assumptions C55_other_grants.

(** The token it returns is accepted. *)
Theorem C55_token_usable : forall cfg l s ev c q r t, history cfg l s -> config_texts cfg -> token_call ev s c q r ->
  client_authenticate c (connected ev s) q = inl t -> (0 <= cfg_access_lifespan cfg)%Z ->
  forall r' required now w, bearer r' (tr_access_token t) -> covers (tr_scope t) required ->
    (now <= ev_now_access ev + tr_expires_in t * second)%Z -> unsent w ->
    authorize now (fst (serve_http ev s r new_rw)) r' required w = Some (true, w).
Proof. exact c55_usable. Qed.
Print Assumptions C55_token_usable.

(** What Introspect tells. *)
Theorem C55_introspect_active : forall cfg l s ev c q r x, history cfg l s -> config_texts cfg -> credential_texts s ->
  introspection_call ev s c q r -> client_introspect c (connected ev s) q = inl x -> ir_active x = true ->
  authenticates s (lq_client_id q) (lq_client_secret q) /\
  exists d, cd_client_id d = lq_client_id q /\ ir_client_id x = lq_client_id q /\ ir_username x = cd_username d /\
    items (ir_scope x) = items (cd_scope d) /\
    (ir_expires_at x * 1000000000 <= cd_expires_at d < (ir_expires_at x + 1) * 1000000000)%Z /\
    ((ir_token_type x = "access_token" /\ access_token s (lq_token q) d) \/
     (ir_token_type x = "refresh_token" /\ refresh_token s (lq_token q) d)).
Proof. exact c55_active. Qed.
Print Assumptions C55_introspect_active.

(** When Revoke succeeds, and what it means. *)
Theorem C55_revoke_own : forall s ev c q r sg, revocation_call ev s c q r ->
  authenticates s (lq_client_id q) (lq_client_secret q) -> names (server_secret s) (lq_token q) sg ->
  (forall a, sv_access s !! sg = Some a -> cd_client_id a = lq_client_id q) ->
  (forall f, sv_refresh s !! sg = Some f -> cd_client_id f = lq_client_id q) ->
  client_revoke c (connected ev s) q = None.
Proof. exact c55_revoked. Qed.
Print Assumptions C55_revoke_own.

Theorem C55_revoke_permanent : forall s ev c q r sg l s'', revocation_call ev s c q r ->
  client_revoke c (connected ev s) q = None -> names (server_secret s) (lq_token q) sg ->
  run (fst (serve_http ev s r new_rw)) l s'' ->
  (forall x, In x l -> ~ issues_access (server_secret s) x sg /\ ~ issues_refresh (server_secret s) x sg) ->
  authenticates s (lq_client_id q) (lq_client_secret q) /\
  forall now r' str required w, unsent w -> bearer r' str -> names (server_secret s) str sg ->
     exists w', authorize now s'' r' required w = Some (false, w').
Proof. exact c55_revocation_permanent. Qed.
Print Assumptions C55_revoke_permanent.

Example C55_case : history case_config setup case_server /\ config_texts case_config /\
  (exists r, token_call (case_env 1000 (rand1 +:+ rand2)) case_server case_client_config case_token_query r) /\
  (exists t, client_authenticate case_client_config (connected (case_env 1000 (rand1 +:+ rand2)) case_server) case_token_query = inl t /\
     tr_scope t = Some ["read"] /\ tr_expires_in t = 3600%Z).
Proof.
  split; [exact case_setup|]. split; [exact case_config_texts|]. split; [exact case_token_call|].
  eexists. split; [vm_compute; reflexivity|]. split; reflexivity.
Qed.
Example C55_case_wrong_password :
  exists e, client_authenticate case_client_config (connected (case_env 1000 rand1) case_server)
    {| tq_grant_type := "password"; tq_scope := Some ["read"]; tq_client_id := "c1"; tq_client_secret := "s1";
       tq_username := "u1"; tq_password := "wrong"; tq_refresh_token := ""; tq_redirect_uri := ""; tq_code := "" |} = inr (GErr e) /\
    e_name e = "access_denied" /\ e_status e = 403%Z.
Proof. eexists. split; [vm_compute; reflexivity|]. split; reflexivity. Qed.
Example C55_case_lookup : history case_config history2 (after step2) /\ credential_texts (after step2) /\
  (exists r, introspection_call (case_env 1002 rand3) (after step2) case_client_config case_lookup_query r) /\
  (exists x, client_introspect case_client_config (connected (case_env 1002 rand3) (after step2)) case_lookup_query = inl x /\ ir_active x = true) /\
  (exists r, revocation_call (case_env 1002 rand3) (after step2) case_client_config case_lookup_query r) /\
  client_revoke case_client_config (connected (case_env 1002 rand3) (after step2)) case_lookup_query = None.
Proof.
  split; [exact case_history2|]. split; [exact case_credential_texts|]. split; [exact case_introspection_call|].
  split; [eexists; split; [vm_compute; reflexivity|reflexivity]|]. split; [exact case_revocation_call|]. vm_compute. reflexivity.
Qed.

(** C56. *)
Theorem C56_token_roundtrip : forall w0 r, unsent w0 -> tr_redirect_uri r = "" -> token_texts r ->
  exists w rs, write_token_response w0 r = Some (w, true) /\ received w = Some rs /\ rs_status rs = 200%Z /\
    forall limit, fits w limit -> exists r', parse_token_response rs limit = Some r' /\ same_token r r'.
Proof. exact c56_roundtrip. Qed.
Print Assumptions C56_token_roundtrip.

Example C56_case : token_texts case_token_response /\ unsent new_rw /\ tr_redirect_uri case_token_response = "".
Proof. split; [exact case_token_texts|]. split; [split; reflexivity|reflexivity]. Qed.

(** C57. *)
Theorem C57_introspection_roundtrip : forall w0 r, unsent w0 -> (ir_active r = true -> In (ir_token_type r) ["access_token"; "refresh_token"]) ->
  introspection_texts r ->
  exists w rs, write_introspection_response w0 r = Some (w, true) /\ received w = Some rs /\ rs_status rs = 200%Z /\
    forall limit, fits w limit -> exists r', parse_introspection_response rs limit = Some r' /\ same_introspection r r'.
Proof. exact c57_roundtrip. Qed.
Print Assumptions C57_introspection_roundtrip.

Theorem C57_unknown_type_refused : forall w0 r, ir_active r = true -> ir_token_type r <> "access_token" -> ir_token_type r <> "refresh_token" ->
  write_introspection_response w0 r = Some (w0, false).
Proof. exact c57_refused. Qed.
Print Assumptions C57_unknown_type_refused.

Example C57_case : introspection_texts case_introspection /\ ir_active case_introspection = true /\
  In (ir_token_type case_introspection) ["access_token"; "refresh_token"].
Proof. split; [exact case_introspection_texts|]. split; [reflexivity|]. left. reflexivity. Qed.

(** C71. *)
Theorem C71_nearest_float64 : forall w0 r, unsent w0 -> (ir_active r = true -> In (ir_token_type r) ["access_token"; "refresh_token"]) ->
  introspection_texts_with float_literal r ->
  exists w rs, write_introspection_response w0 r = Some (w, true) /\ received w = Some rs /\
    forall limit, fits w limit -> exists r', parse_introspection_response rs limit = Some r' /\
      same_value (JObj (default [] (ir_extra r))) (JObj (default [] (ir_extra r'))).
Proof. exact c71_nearest. Qed.
Print Assumptions C71_nearest_float64.

Theorem C71_exact_numbers : forall w0 r, unsent w0 -> (ir_active r = true -> In (ir_token_type r) ["access_token"; "refresh_token"]) ->
  introspection_texts_with exact_literal r ->
  exists w rs, write_introspection_response w0 r = Some (w, true) /\ received w = Some rs /\
    forall limit, fits w limit -> exists r', parse_introspection_response rs limit = Some r' /\
      default [] (ir_extra r') = default [] (ir_extra r).
Proof. exact c71_exact. Qed.
Print Assumptions C71_exact_numbers.

Theorem C71_out_of_range_refused : forall w0 r s v, unsent w0 -> (ir_active r = true -> In (ir_token_type r) ["access_token"; "refresh_token"]) ->
  introspection_texts_with short_literal r -> number_in s (JObj (default [] (ir_extra r))) ->
  number s v -> ~ float_range v ->
  exists w rs, write_introspection_response w0 r = Some (w, true) /\ received w = Some rs /\
    forall limit, fits w limit -> parse_introspection_response rs limit = None.
Proof. exact c71_range. Qed.
Print Assumptions C71_out_of_range_refused.

Theorem C71_large_integer_rounded : exists r w rs r', introspection_texts r /\ ir_extra r = Some [("n", JNum (itoa (2 ^ 53 + 1)))] /\
  write_introspection_response new_rw r = Some (w, true) /\ received w = Some rs /\
  parse_introspection_response rs 2048 = Some r' /\ ir_extra r' = Some [("n", JNum (itoa (2 ^ 53)))].
Proof. exact c71_rounded. Qed.
Print Assumptions C71_large_integer_rounded.

Example C71_case : introspection_texts_with exact_literal
    (case_introspection_extra [("a", JNum "9007199254740992"); ("b", JArr [JNum "-0.5"; JNum "1e+21"])]) /\
  introspection_texts_with short_literal (case_introspection_extra [("a", JArr [JNum "1e400"])]) /\
  number_in "1e400" (JObj [("a", JArr [JNum "1e400"])]) /\
  number "1e400" (inject_Z (10 ^ 400)) /\ ~ float_range (inject_Z (10 ^ 400)).
Proof.
  split; [exact case_exact_texts|]. split; [exact case_huge_texts|]. split; [|split; [exact case_huge|exact case_huge_range]].
  eapply in_object; [left; reflexivity|]. eapply in_slice; [left; reflexivity|]. constructor.
Qed.

(** C62. *)
Theorem C62_error_roundtrip : forall w0 e, unsent w0 -> e_redirect_uri e = "" -> status_with_body (e_status e) -> error_texts e ->
  exists w rs, write_error w0 (GErr e) = Some (w, true) /\ received w = Some rs /\ rs_status rs = e_status e /\
    forall limit, fits w limit -> exists e', parse_request_error rs limit = GErr e' /\ same_error e e'.
Proof. exact c62_roundtrip. Qed.
Print Assumptions C62_error_roundtrip.

Example C62_case : error_texts case_error /\ status_with_body (e_status case_error) /\ e_redirect_uri case_error = "".
Proof. split; [exact case_error_texts|]. split; [|reflexivity]. split; [|split]; cbn; try discriminate. split; discriminate. Qed.

(** C63. *)
Theorem C63_token_cut : forall w0 r, unsent w0 -> tr_redirect_uri r = "" -> token_texts r ->
  exists w rs, write_token_response w0 r = Some (w, true) /\ received w = Some rs /\
    forall limit, cuts w limit -> parse_token_response rs limit = None.
Proof. exact c63_token. Qed.
Print Assumptions C63_token_cut.

Theorem C63_introspection_cut : forall w0 r, unsent w0 -> (ir_active r = true -> In (ir_token_type r) ["access_token"; "refresh_token"]) ->
  introspection_texts r ->
  exists w rs, write_introspection_response w0 r = Some (w, true) /\ received w = Some rs /\
    forall limit, cuts w limit -> parse_introspection_response rs limit = None.
Proof. exact c63_introspection. Qed.
Print Assumptions C63_introspection_cut.

Theorem C63_error_cut : forall w0 e, unsent w0 -> e_redirect_uri e = "" -> status_with_body (e_status e) -> error_texts e ->
  exists w rs, write_error w0 (GErr e) = Some (w, true) /\ received w = Some rs /\
    forall limit, cuts w limit -> parse_request_error rs limit = GOther.
Proof. exact c63_error. Qed.
Print Assumptions C63_error_cut.

Example C63_case : exists w, write_token_response new_rw case_token_response = Some (w, true) /\ cuts w 100 /\ fits w 1000.
Proof. eexists. split; [vm_compute; reflexivity|]. split; [reflexivity|]. vm_compute. discriminate. Qed.
