(** C64 and C65: the conformance suite of the package oauth2test. *)
From Verif.Model Require Import Server Suite.
From Verif.Spec Require Import ServerSpec SuiteSpec SuiteCases.
From Verif.Proof Require Import SuiteProofs SuiteCase.

#[local] Opaque handle parse_token.

(** C64. The server passes the suite if it is as the specification says. *)
Theorem C64_server_passes : forall resource required sp s t0 t1 evs,
  described resource required sp s t0 t1 -> Forall (in_time s t0 t1) evs -> fresh_randomness sp s evs ->
  no_failure (run_suite (mounted resource required) evs s (run_spec sp)) /\
  (most_requests sp <= length evs ->
     passed (run_suite (mounted resource required) evs s (run_spec sp))).
Proof. exact c64_passes. Qed.
Print Assumptions C64_server_passes.

(** The repository's own test, with all grants and endpoints. *)
Theorem C64_own_test : forall t now evs, well_made t ->
  Forall (in_time (test_server t now) now (now + 600 * second)) evs ->
  fresh_randomness (test_spec t true true true true true "/oauth2/introspect" "/oauth2/revoke") (test_server t now) evs ->
  146 <= length evs ->
  passed (run_suite (mounted test_resource test_required) evs (test_server t now)
    (run_spec (test_spec t true true true true true "/oauth2/introspect" "/oauth2/revoke"))).
Proof. exact c64_own_test. Qed.
Print Assumptions C64_own_test.

Example C64_case :
  described test_resource test_required case_spec case_server 0 (600 * second) /\
  Forall (in_time case_server 0 (600 * second)) case_envs /\
  fresh_randomness case_spec case_server case_envs /\
  (most_requests case_spec <= length case_envs)%nat /\ well_made case_tokens /\
  passed (run_suite (mounted test_resource test_required) case_envs case_server (run_spec case_spec)).
Proof. exact case_all. Qed.

(** C65. Any handler that passes has behaved as wanted; the handler keeps any kind
    of state. *)
Theorem C65_examined : forall S (h : handler S) evs s sp,
  passed (run_suite h evs s (run_spec sp)) ->
  complete_spec sp /\ examined sp (exchanges h evs s (run_spec sp)).
Proof. exact c65_examined. Qed.
Print Assumptions C65_examined.

(** So no handler passes that does not keep any. *)
Theorem C65_forgetful : forall S (h : handler S) (f : request -> option rw),
  (forall ev s r, snd (h ev s r) = f r) ->
  forall evs s sp, sp_revocation sp <> "" ->
  ~ passed (run_suite h evs s (run_spec sp)).
Proof. exact c65_forgetful. Qed.
Print Assumptions C65_forgetful.

Example C65_case :
  passed (run_suite (mounted test_resource test_required) case_envs case_server (run_spec case_spec)) /\
  (forall ev s r, snd (careless ev s r) = Some new_rw) /\
  sp_revocation default_spec <> "".
Proof. exact case_sound. Qed.
