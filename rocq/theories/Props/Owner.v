(** C73: histories in which the owner also assigns to the exported fields. *)
From Verif.Model Require Import Server History Concurrent Owner.
From Verif.Spec Require Import TokenSpec ScopeSpec WireSpec RequestSpec ServerSpec HistorySpec Cases HistoryCases OwnerSpec OwnerCases.
From Verif.Proof Require Import CaseProofs HistoryCase OwnerProofs OwnerCase.

#[local] Opaque handle parse_token authorize.

(** C73. A token is accepted exactly if, the last time it came into being, by
    an answer or by an assignment, it got an expiry not yet over and a scope
    that suffices, and nothing has ended it since. *)
Theorem C73_access_tokens : forall l s now r str sg required w, owned l s ->
  bearer r str -> names (server_secret s) str sg ->
  (exists w', authorize now s r required w = Some (true, w')) <->
  (exists e later sc expires, latest (fun y => exists sc expires, brings_access y sg sc expires) l e later /\
     brings_access e sg sc expires /\ covers sc required /\ (now <= expires)%Z /\
     forall y, In y later -> ~ takes_access e y sg).
Proof. exact c73_access. Qed.
Print Assumptions C73_access_tokens.

(** A refresh token can be exchanged exactly if ... *)
Theorem C73_refresh_tokens : forall l s ev r sg id, owned l s ->
  complete_token_request r -> from_client s r id -> presents_refresh (server_secret s) r sg -> enough_random ev s 2 ->
  (exists s' t, handle ev s r = Done s' (OToken t)) <->
  (exists e later sc expires, latest (fun y => exists id sc expires, brings_refresh y sg id sc expires) l e later /\
     brings_refresh e sg id sc expires /\ covers sc (parse_scope (body_param r "scope")) /\
     (ev_now_check ev <= expires)%Z /\ forall y, In y later -> ~ takes_refresh e y sg).
Proof. exact c73_refresh. Qed.
Print Assumptions C73_refresh_tokens.

(** A code can be redeemed exactly if ... *)
Theorem C73_codes : forall l s ev r sg id, owned l s ->
  complete_token_request r -> from_client s r id -> presents_code (server_secret s) r sg -> enough_random ev s 2 ->
  (exists s' t, handle ev s r = Done s' (OToken t)) <->
  (exists e later uri expires, latest (fun y => exists id uri expires, brings_code y sg id uri expires) l e later /\
     brings_code e sg id uri expires /\ query_unescape (body_param r "redirect_uri") = Some uri /\
     (ev_now_check ev <= expires)%Z /\ forall y, In y later -> ~ takes_code y sg).
Proof. exact c73_code. Qed.
Print Assumptions C73_codes.

(** The settings other than the secret do not matter to tokens that exist. *)
Theorem C73_settings : forall now s cfg r required w, cfg_secret cfg = server_secret s ->
  authorize now (set_config s cfg) r required w = authorize now s r required w.
Proof. exact c73_settings. Qed.
Print Assumptions C73_settings.

(** A token string that is not signed with the secret in force is refused. *)
Theorem C73_foreign_secret : forall now s r str required w,
  bearer r str -> (forall sg, ~ names (server_secret s) str sg) ->
  ~ exists w', authorize now s r required w = Some (true, w').
Proof. exact c73_foreign_secret. Qed.
Print Assumptions C73_foreign_secret.

(** Here the owner extends an issued token, changes the secret and restores it
    together with stricter settings; the extended token is accepted. *)
Example C73_case : owned owner_events owner_server /\
  bearer (bearer_request (access_of step2)) (access_of step2) /\
  names (server_secret owner_server) (access_of step2) (sig_of (access_of step2)) /\
  exists w, authorize (8999 * second) owner_server (bearer_request (access_of step2)) (Some ["admin"]) new_rw = Some (true, w).
Proof. split; [exact owner_owned|]. split; [exact owner_bearer|]. split; [exact names2|exact owner_accepts]. Qed.
