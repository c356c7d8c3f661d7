(** C97: the grammar of answers. *)
From Verif.Model Require Import Server History.
From Verif.Spec Require Import TokenSpec ScopeSpec WireSpec RequestSpec ServerSpec HistorySpec Cases HistoryCases RefusalSpec
  RefusalCases GrammarSpec.
From Verif.Proof Require Import GrammarProofs GrammarCase.

#[local] Open Scope string_scope.
#[local] Opaque handle parse_token.

(** Tokens and codes can be sent in a header or a URL as they are. *)
Theorem C97_tokens : forall ev s r s' t, handle ev s r = Done s' (OToken t) ->
  tr_token_type t = "bearer" /\ b64token (tr_access_token t) /\ (tr_refresh_token t = "" \/ b64token (tr_refresh_token t)).
Proof. exact c97_tokens. Qed.
Print Assumptions C97_tokens.

Theorem C97_codes : forall ev s r s' c, handle ev s r = Done s' (OCode c) -> b64token (cr_code c).
Proof. exact c97_codes. Qed.
Print Assumptions C97_codes.

(** Error codes and descriptions have no characters but those allowed, whether they
    are sent as a document or in a redirect. *)
Theorem C97_errors : forall ev s r s' e, handle ev s r = Done s' (OError e) ->
  e_name e <> "" /\ made_of error_char (e_name e) /\ made_of error_char (e_description e) /\
  e_uri e = "" /\ e_realm e = "" /\ e_scope e = None.
Proof. exact c97_errors. Qed.
Print Assumptions C97_errors.

(** Announced scopes, if those the server is configured with are. *)
Theorem C97_scopes : forall cfg l s, history cfg l s -> grammatical_config cfg ->
  (forall ev r s' t, handle ev s r = Done s' (OToken t) -> Forall scope_token (items (tr_scope t))) /\
  (forall ev r s' i, handle ev s r = Done s' (OIntro i) -> Forall scope_token (items (ir_scope i))).
Proof. exact c97_scopes. Qed.
Print Assumptions C97_scopes.

(** All members of what the token endpoint writes. *)
Theorem C97_documents : forall cfg l s ev r w o k x, history cfg l s -> grammatical_config cfg -> endpoint r "token" ->
  serves ev s r w -> json_object w o -> In (k, JStr x) o -> grammatical_member k x.
Proof. exact c97_documents. Qed.
Print Assumptions C97_documents.

(** All members of the error documents of every endpoint. *)
Theorem C97_error_documents : forall ev s r w o k x code name, serves ev s r w -> error_document w code name -> code <> 200%Z ->
  json_object w o -> In (k, JStr x) o -> grammatical_member k x.
Proof. exact c97_error_documents. Qed.
Print Assumptions C97_error_documents.

Example C97_case : exists w o x y, history case_config history2 (after step2) /\ grammatical_config case_config /\
  endpoint (refresh_request case_auth (refresh_of step2)) "token" /\
  serves (case_env 1002 rand3) (after step2) (refresh_request case_auth (refresh_of step2)) w /\ json_object w o /\
  In ("access_token", JStr x) o /\ In ("scope", JStr y) o.
Proof. exact case_documents. Qed.
Example C97_case_error : exists w o x, serves (case_env 1 rand1) case_server bad_grant w /\ error_document w 400 "invalid_request" /\
  json_object w o /\ In ("error_description", JStr x) o.
Proof. exact case_error_document. Qed.
