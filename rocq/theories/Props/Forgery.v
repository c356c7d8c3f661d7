(** C98: what is accepted was given out, or SHA-256 is broken. *)
From Verif.Model Require Import Server History.
From Verif.Spec Require Import TokenSpec ScopeSpec WireSpec RequestSpec ServerSpec HistorySpec Cases HistoryCases HashSpec ForgerySpec.
From Verif.Proof Require Import ForgeryProofs ForgeryCase.

#[local] Open Scope string_scope.
#[local] Opaque handle parse_token.

(** The token Authorize accepts is one of an earlier answer, up to its spelling. *)
Theorem C98_access : forall cfg l s now r required w w', history cfg l s ->
  authorize now s r required w = Some (true, w') ->
  exists str x ev r0 t, bearer r str /\ In x l /\ served x ev r0 (OToken t) /\
    copied_or_collides (cfg_secret cfg) str (tr_access_token t).
Proof. exact c98_access. Qed.
Print Assumptions C98_access.

(** So is the refresh token that is redeemed, ... *)
Theorem C98_refresh : forall cfg l s ev r s' t, history cfg l s ->
  handle ev s r = Done s' (OToken t) -> endpoint r "token" -> body_param r "grant_type" = "refresh_token" ->
  exists x ev0 r0 t0, In x l /\ served x ev0 r0 (OToken t0) /\
    copied_or_collides (cfg_secret cfg) (body_param r "refresh_token") (tr_refresh_token t0).
Proof. exact c98_refresh. Qed.
Print Assumptions C98_refresh.

(** ... the code ... *)
Theorem C98_code : forall cfg l s ev r s' t, history cfg l s ->
  handle ev s r = Done s' (OToken t) -> endpoint r "token" -> body_param r "grant_type" = "authorization_code" ->
  exists x ev0 r0 c0, In x l /\ served x ev0 r0 (OCode c0) /\
    copied_or_collides (cfg_secret cfg) (body_param r "code") (cr_code c0).
Proof. exact c98_code. Qed.
Print Assumptions C98_code.

(** ... and the token about which introspection reports anything. *)
Theorem C98_introspection : forall cfg l s ev r s' x, history cfg l s ->
  handle ev s r = Done s' (OIntro x) -> ~ reports_nothing x ->
  exists y ev0 r0 t0, In y l /\ served y ev0 r0 (OToken t0) /\
    (copied_or_collides (cfg_secret cfg) (body_param r "token") (tr_access_token t0) \/
     copied_or_collides (cfg_secret cfg) (body_param r "token") (tr_refresh_token t0)).
Proof. exact c98_introspection. Qed.
Print Assumptions C98_introspection.

(** Two keys with the same signature lead to a collision of the hash. *)
Theorem C98_signatures : forall secret k k',
  hs_signature (token_from_key secret k) = hs_signature (token_from_key secret k') ->
  k = k' \/ lead_to_collision secret k k'.
Proof. exact c98_signatures. Qed.
Print Assumptions C98_signatures.

(** The tokens of [step2] are accepted, redeemed and reported, and the code of
    [step1] is redeemed. *)
Example C98_case : history case_config history2 (after step2) /\
  (authorize (1002 * second) (after step2) (bearer_request (access_of step2)) None new_rw = Some (true, new_rw)) /\
  (exists s' t, handle (case_env 1002 rand3) (after step2) (refresh_request case_auth (refresh_of step2)) = Done s' (OToken t)) /\
  body_param (refresh_request case_auth (refresh_of step2)) "grant_type" = "refresh_token" /\
  history case_config history1 (after step1) /\
  (exists s' t, handle (case_env 1001 rand2) (after step1) (redeem_request case_auth (code_of step1)) = Done s' (OToken t)) /\
  body_param (redeem_request case_auth (code_of step1)) "grant_type" = "authorization_code".
Proof. exact case_accepted. Qed.
Example C98_case_introspection : exists x,
  handle (case_env 1002 rand3) (after step2) (lookup_request "/oauth2/introspect" case_auth (access_of step2)) = Done (after step2) (OIntro x) /\
  ~ reports_nothing x.
Proof. exact case_reported. Qed.
(** Two spellings of one token, the second with other trailing bits in its last
    letter. *)
Example C98_case_spellings :
  same_token "MDEyMzQ1Njc4OWFiY2RlZg.q4A3MWDZaJmzogkpH85_VRao2yUMeT7yhJv7jqpq3j8"
    "MDEyMzQ1Njc4OWFiY2RlZh.q4A3MWDZaJmzogkpH85_VRao2yUMeT7yhJv7jqpq3j8".
Proof. exact case_spellings. Qed.
