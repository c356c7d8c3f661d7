(** C78: a client with the default settings and a server with the default settings. *)
From Verif.Model Require Import HttpClient History.
From Verif.Spec Require Import ScopeSpec WireSpec RequestSpec ServerSpec HistorySpec ClientSpec TransportSpec DefaultSpec Cases HistoryCases ClientCases TransportCases.
From Verif.Proof Require Import DefaultProofs HistoryCase ClientCase TransportCase DefaultCase.

#[local] Open Scope string_scope.
#[local] Opaque handle parse_token.

(** C78. The endpoints of NewClient(Default(base)) are sent to and lead to the
    endpoints of a server mounted at /oauth2. *)
Theorem C78_endpoints : forall base k,
  base_uri base ->
  sendable (endpoint_of (default_client base) k) /\ leads_to (endpoint_of (default_client base) k) (endpoint_name k).
Proof. exact c78_endpoints. Qed.
Print Assumptions C78_endpoints.

(** With keys of at most 16 bytes and a granted scope of at most 150 bytes, the
    caller of Authenticate gets what the server answered. Errors always fit. *)
Theorem C78_authenticate : forall n hc net cfg l ev s base q r, history cfg l s -> config_texts cfg -> (cfg_key_length cfg <= 16)%Z ->
  base_uri base -> has_secret (CallAuthenticate q) -> first_answered net ev s ->
  build_token_request (base +:+ "/oauth2/token") q = Some r ->
  let result := one_message (authenticate_over n hc net (default_client base) q) in
  match handle ev s r with
  | Done _ (OToken t) => scope_bytes (tr_scope t) <= 150 -> exists t', result (inl t') /\ same_token t t'
  | Done _ (OError e) => exists e', result (inr (GErr e')) /\ same_error e e'
  | Done _ _ => False
  | Panic _ => result (inr GOther)
  end.
Proof. exact c78_authenticate. Qed.
Print Assumptions C78_authenticate.

(** With names and a scope of at most 250 bytes together, the same holds for Introspect, *)
Theorem C78_introspect : forall n hc net cfg l ev s base q r, history cfg l s -> config_texts cfg -> credential_texts s ->
  base_uri base -> has_secret (CallIntrospect q) -> first_answered net ev s ->
  build_introspection_request (base +:+ "/oauth2/introspect") q = Some r ->
  let result := one_message (introspect_over n hc net (default_client base) q) in
  match handle ev s r with
  | Done _ (OIntro x) => String.length (ir_client_id x) + String.length (ir_username x) + scope_bytes (ir_scope x) <= 250 ->
      exists x', result (inl x') /\ same_introspection x x'
  | Done _ (OError e) => exists e', result (inr (GErr e')) /\ same_error e e'
  | Done _ _ => False
  | Panic _ => result (inr GOther)
  end.
Proof. exact c78_introspect. Qed.
Print Assumptions C78_introspect.

(** and for Revoke without conditions. *)
Theorem C78_revoke : forall n hc net ev s base q r,
  base_uri base -> has_secret (CallRevoke q) -> first_answered net ev s ->
  build_revocation_request (base +:+ "/oauth2/revoke") q = Some r ->
  let result := one_message (revoke_over n hc net (default_client base) q) in
  match handle ev s r with
  | Done _ ORevoked => result None
  | Done _ (OError e) => exists e', result (Some (GErr e')) /\ same_error e e'
  | Done _ _ => False
  | Panic _ => result (Some GOther)
  end.
Proof. exact c78_revoke. Qed.
Print Assumptions C78_revoke.

Example C78_case_base : base_uri "https://s.example:8443/api" /\
  endpoint_of (default_client "https://s.example:8443/api") case_password_call = "https://s.example:8443/api/oauth2/token".
Proof. split; [exact case_base_port|reflexivity]. Qed.
Example C78_case : history case_config setup case_server /\ config_texts case_config /\ (cfg_key_length case_config <= 16)%Z /\
  base_uri "https://s.example" /\ has_secret case_password_call /\
  first_answered case_network (case_env 1000 (rand1 +:+ rand2)) case_server /\
  exists r s' t t', build_token_request ("https://s.example" +:+ "/oauth2/token") case_token_query = Some r /\
    handle (case_env 1000 (rand1 +:+ rand2)) case_server r = Done s' (OToken t) /\ scope_bytes (tr_scope t) <= 150 /\
    one_message (authenticate_over 3 plain_client case_network (default_client "https://s.example") case_token_query) (inl t').
Proof.
  split; [exact case_setup|]. split; [exact case_config_texts|]. split; [vm_compute; discriminate|]. split; [exact case_base|].
  split; [discriminate|]. split; [exact case_first_answered|]. exact case_default_call.
Qed.
