(** C29 - C66: histories of requests, starting from NewServer. *)
From Verif.Model Require Import Server History.
From Verif.Spec Require Import TokenSpec ScopeSpec WireSpec BuilderSpec RequestSpec ServerSpec HistorySpec Cases HistoryCases.
From Verif.Proof Require Import ServerProofs GrantProofs EffectProofs CaseProofs HistoryProofs ExpiredProofs HistoryMore HistoryCase.

#[local] Opaque handle parse_token.

(** C29. Usable up to and including the expiry instant, refused after it. *)
Theorem C29_access_until_expiry : forall now s r str c required w,
  bearer r str -> access_token s str c -> covers (cd_scope c) required ->
  (exists w', authorize now s r required w = Some (true, w')) <-> (now <= cd_expires_at c)%Z.
Proof. exact c29_access. Qed.
Print Assumptions C29_access_until_expiry.

Theorem C29_refresh_until_expiry : forall ev s r id d, complete_token_request r -> from_client s r id ->
  body_param r "grant_type" = "refresh_token" -> refresh_token s (body_param r "refresh_token") d ->
  cd_client_id d = id -> covers (cd_scope d) (parse_scope (body_param r "scope")) -> enough_random ev s 2 ->
  (exists s' t, handle ev s r = Done s' (OToken t)) <-> (ev_now_check ev <= cd_expires_at d)%Z.
Proof. exact c29_refresh. Qed.
Print Assumptions C29_refresh_until_expiry.

Theorem C29_code_until_expiry : forall ev s r id d, complete_token_request r -> from_client s r id ->
  body_param r "grant_type" = "authorization_code" -> auth_code s (body_param r "code") d ->
  cd_client_id d = id -> cd_used d = false -> query_unescape (body_param r "redirect_uri") = Some (cd_redirect_uri d) ->
  enough_random ev s 2 ->
  (exists s' t, handle ev s r = Done s' (OToken t)) <-> (ev_now_check ev <= cd_expires_at d)%Z.
Proof. exact c29_code. Qed.
Print Assumptions C29_code_until_expiry.

(** Once refused as expired, refused until issued again. *)
Theorem C29_expired_access_forever : forall now s r required w1 str sg l s' now' r' str' required' w,
  authorize now s r required new_rw = Some (false, w1) ->
  header_values w1 "Www-Authenticate" =
    ["Bearer error=" +:+ in_quotes "invalid_token" +:+ ", error_description=" +:+ in_quotes "expired token"] ->
  bearer r str -> names (server_secret s) str sg ->
  History.run s l s' -> (forall x, In x l -> ~ issues_access (server_secret s) x sg) -> (now <= now')%Z ->
  bearer r' str' -> names (server_secret s) str' sg ->
  ~ exists w', authorize now' s' r' required' w = Some (true, w').
Proof. exact c29_told_forever. Qed.
Print Assumptions C29_expired_access_forever.

Theorem C29_expired_refresh_forever : forall ev s r s0 e sg l s' ev' r' s1 t,
  handle ev s r = Done s0 (OError e) -> e_name e = "invalid_grant" -> e_description e = "expired refresh token" ->
  presents_refresh (server_secret s) r sg ->
  run s0 l s' -> (forall x, In x l -> ~ issues_refresh (server_secret s) x sg) -> (ev_now_check ev <= ev_now_check ev')%Z ->
  presents_refresh (server_secret s) r' sg -> handle ev' s' r' <> Done s1 (OToken t).
Proof. exact c29_refresh_forever. Qed.
Print Assumptions C29_expired_refresh_forever.

Theorem C29_expired_code_forever : forall ev s r s0 e sg l s' ev' r' s1 t,
  handle ev s r = Done s0 (OError e) -> e_name e = "invalid_grant" -> e_description e = "expired authorization code" ->
  presents_code (server_secret s) r sg ->
  run s0 l s' -> (forall x, In x l -> ~ issues_code (server_secret s) x sg) -> (ev_now_check ev <= ev_now_check ev')%Z ->
  presents_code (server_secret s) r' sg -> handle ev' s' r' <> Done s1 (OToken t).
Proof. exact c29_code_forever. Qed.
Print Assumptions C29_expired_code_forever.

Example C29_case :
  (exists w, authorize (4601 * second + 1) (after step2) (bearer_request (access_of step2)) None new_rw = Some (false, w) /\
     header_values w "Www-Authenticate" =
       ["Bearer error=" +:+ in_quotes "invalid_token" +:+ ", error_description=" +:+ in_quotes "expired token"]) /\
  authorize (4601 * second) (after step2) (bearer_request (access_of step2)) None new_rw = Some (true, new_rw) /\
  (exists e, handle (case_env 605802 rand3) (after step2) (refresh_request case_auth (refresh_of step2)) =
     Done (after step2) (OError e) /\ e_name e = "invalid_grant" /\ e_description e = "expired refresh token") /\
  (exists e, handle (case_env 1601 rand3) (after step1) (redeem_request case_auth (code_of step1)) =
     Done (after step1) (OError e) /\ e_name e = "invalid_grant" /\ e_description e = "expired authorization code").
Proof.
  split; [eexists; split; vm_compute; reflexivity|]. split; [vm_compute; reflexivity|].
  split; (eexists; split; [vm_compute; reflexivity|split; reflexivity]).
Qed.

(** C30 in histories. *)
Theorem C30_accepted_in_history : forall cfg l s ev r s' t sg l' s'' r' required now w, history cfg l s ->
  handle ev s r = Done s' (OToken t) -> names (cfg_secret cfg) (tr_access_token t) sg -> run s' l' s'' ->
  (forall y, In y l' -> ~ issues_access (cfg_secret cfg) y sg /\ ~ ends_access (cfg_secret cfg) (step_of s (Serve ev r)) y sg) ->
  (0 <= cfg_access_lifespan cfg)%Z -> bearer r' (tr_access_token t) -> covers (tr_scope t) required ->
  (now <= ev_now_access ev + tr_expires_in t * second)%Z ->
  exists w', authorize now s'' r' required w = Some (true, w').
Proof. exact c30_history. Qed.
Print Assumptions C30_accepted_in_history.

Example C30_case : history case_config history2 (after step2) /\ (0 <= cfg_access_lifespan case_config)%Z /\
  run (after step2) [step_of (after step2) (DropClient "c1")] (fst (do_op (after step2) (DropClient "c1"))) /\
  ~ issues_access (cfg_secret case_config) (step_of (after step2) (DropClient "c1")) (sig_of (access_of step2)) /\
  ~ ends_access (cfg_secret case_config) case_x2 (step_of (after step2) (DropClient "c1")) (sig_of (access_of step2)).
Proof.
  split; [exact case_history2|]. split; [vm_compute; discriminate|]. split; [apply run_step, run_nil|].
  split; [intros (ev & r & o & [Hs _] & _); discriminate Hs|].
  intros [(ev & r & [Hs _] & _)|[(k & _ & ev & r & e & [Hs _] & _)|(ev & r & e & ev' & r' & o' & id & [Hs _] & _)]]; discriminate Hs.
Qed.

(** C31. *)
Theorem C31_scopes_allowed : forall cfg l s k c, history cfg l s ->
  sv_access s !! k = Some c \/ sv_refresh s !! k = Some c \/ sv_codes s !! k = Some c ->
  covers (cfg_allowed_scope cfg) (cd_scope c).
Proof. exact c31_scopes. Qed.
Print Assumptions C31_scopes_allowed.

Theorem C31_announced_scope : forall cfg l s x ev r t, history cfg l s -> In x l -> served x ev r (OToken t) ->
  covers (cfg_allowed_scope cfg) (tr_scope t) /\
  exists a, access_token (st_after x) (tr_access_token t) a /\ cd_scope a = tr_scope t.
Proof. exact c31_answers. Qed.
Print Assumptions C31_announced_scope.

Example C31_case : history case_config history2 (after step2) /\ In case_x2 history2 /\
  (exists ev r t, served case_x2 ev r (OToken t)) /\ is_Some (sv_access (after step2) !! sig_of (access_of step2)).
Proof.
  split; [exact case_history2|]. split; [by left|]. split; [|eexists; vm_compute; reflexivity].
  destruct served2 as (s & t & _ & _ & _ & Hs). by eexists _, _, _.
Qed.

(** C33. *)
Theorem C33_refresh_redeemed_at_most_once : forall cfg l s sg n m, history cfg l s ->
  counts (fun x => redeems_refresh (cfg_secret cfg) x sg) l n ->
  counts (fun x => issues_refresh (cfg_secret cfg) x sg) l m -> n <= m.
Proof. exact c33_counting. Qed.
Print Assumptions C33_refresh_redeemed_at_most_once.

Example C33_case : history case_config history3 (after step3) /\
  counts (fun x => redeems_refresh (cfg_secret case_config) x (sig_of (refresh_of step2))) history3 1 /\
  counts (fun x => issues_refresh (cfg_secret case_config) x (sig_of (refresh_of step2))) history3 1.
Proof. split; [exact case_history3|exact counts_refresh]. Qed.

(** C34. *)
Theorem C34_code_redeemed_at_most_once : forall cfg l s sg n m, history cfg l s ->
  counts (fun x => redeems_code (cfg_secret cfg) x sg) l n ->
  counts (fun x => issues_code (cfg_secret cfg) x sg) l m -> n <= m.
Proof. exact c34_counting. Qed.
Print Assumptions C34_code_redeemed_at_most_once.

Example C34_case : history case_config history2 (after step2) /\
  counts (fun x => redeems_code (cfg_secret case_config) x (sig_of (code_of step1))) history2 1 /\
  counts (fun x => issues_code (cfg_secret case_config) x (sig_of (code_of step1))) history2 1.
Proof. split; [exact case_history2|exact counts_code]. Qed.

(** C35. *)
Theorem C35_code_bound : forall cfg l s ev r s' t sg, history cfg l s ->
  handle ev s r = Done s' (OToken t) -> presents_code (cfg_secret cfg) r sg ->
  exists x later ev0 r0, last_step (fun y => issues_code (cfg_secret cfg) y sg) l x later /\
    grants_code (cfg_secret cfg) x sg ev0 r0 /\
    from_client s r (form_param r0 "client_id") /\
    query_unescape (body_param r "redirect_uri") = query_unescape (form_param r0 "redirect_uri") /\
    tr_scope t = parse_scope (form_param r0 "scope") /\
    (ev_now_check ev <= ev_now_code ev0 + cfg_code_lifespan cfg)%Z /\
    (forall y, In y later -> ~ redeems_code (cfg_secret cfg) y sg) /\
    (exists a, access_token s' (tr_access_token t) a /\ cd_client_id a = form_param r0 "client_id" /\
       cd_username a = body_param r0 "username" /\ cd_scope a = parse_scope (form_param r0 "scope")) /\
    (exists f, refresh_token s' (tr_refresh_token t) f /\ cd_client_id f = form_param r0 "client_id" /\
       cd_username f = body_param r0 "username" /\ cd_scope f = parse_scope (form_param r0 "scope")).
Proof. exact c35_provenance. Qed.
Print Assumptions C35_code_bound.

Example C35_case : history case_config history1 (after step1) /\
  (exists s t, handle (case_env 1001 rand2) (after step1) (redeem_request case_auth (code_of step1)) = Done s (OToken t)) /\
  presents_code (cfg_secret case_config) (redeem_request case_auth (code_of step1)) (sig_of (code_of step1)).
Proof.
  split; [exact case_history1|]. split; [|exact presented2]. destruct served2 as (s & t & H & _). by exists s, t.
Qed.

(** C36, in terms of what clients see. Let the request of [y] present the
    code [k] and be refused as a replay. An access token that was issued before,
    last in the answer [x], is accepted afterwards exactly if it was accepted
    before and [x] did not redeem that very code. *)
Theorem C36_access_tokens_of_the_code : forall cfg l s y s' k sg x later now r str required w,
  history cfg l s -> history cfg (y :: l) s' -> refused_as_unknown (cfg_secret cfg) y k ->
  last_step (fun z => issues_access (cfg_secret cfg) z sg) l x later ->
  bearer r str -> names (cfg_secret cfg) str sg ->
  (exists w', authorize now s' r required w = Some (true, w')) <->
  ~ redeems_code (cfg_secret cfg) x k /\ exists w', authorize now s r required w = Some (true, w').
Proof. exact c36_access. Qed.
Print Assumptions C36_access_tokens_of_the_code.

(** The same for refresh tokens: the request of their client succeeds afterwards
    exactly if it would have succeeded before and the token was not issued for
    that code. *)
Theorem C36_refresh_tokens_of_the_code : forall cfg l s y s' k sg x later ev r id,
  history cfg l s -> history cfg (y :: l) s' -> refused_as_unknown (cfg_secret cfg) y k ->
  last_step (fun z => issues_refresh (cfg_secret cfg) z sg /\ ~ redeems_refresh (cfg_secret cfg) z sg) l x later ->
  complete_token_request r -> from_client s r id -> from_client s' r id ->
  presents_refresh (cfg_secret cfg) r sg -> enough_random ev s 2 ->
  (exists s2 t, handle ev s' r = Done s2 (OToken t)) <->
  ~ redeems_code (cfg_secret cfg) x k /\ exists s2 t, handle ev s r = Done s2 (OToken t).
Proof. exact c36_refresh. Qed.
Print Assumptions C36_refresh_tokens_of_the_code.

Example C36_history_case : history case_config history2 (after step2) /\
  history case_config (case_y3 :: history2) (st_after case_y3) /\
  refused_as_unknown (cfg_secret case_config) case_y3 (sig_of (code_of step1)) /\
  redeems_code (cfg_secret case_config) case_x2 (sig_of (code_of step1)) /\
  last_step (fun z => issues_access (cfg_secret case_config) z (sig_of (access_of step2))) history2 case_x2 [] /\
  last_step (fun z => issues_refresh (cfg_secret case_config) z (sig_of (refresh_of step2)) /\
    ~ redeems_refresh (cfg_secret case_config) z (sig_of (refresh_of step2))) history2 case_x2 [].
Proof.
  split; [exact case_history2|]. split; [exact replay_history3|]. split; [exact replayed3|]. split; [exact redeemed2|]. split.
  - exists history1. split; [reflexivity|]. split; [exact issued_access2|]. intros z [].
  - exists history1. split; [reflexivity|]. split; [|intros z []]. split; [exact issued_refresh2|].
    exact (redeems_one _ _ _ _ redeemed2).
Qed.

(** C37. False: the tokens of a refresh do not remember the code. *)
Theorem C37_replay_revokes_descendants_refuted : exists cfg setup x1 x2 x3 x4 s k f a str,
  history cfg (x4 :: x3 :: x2 :: x1 :: setup) s /\
  issues_code (cfg_secret cfg) x1 k /\
  redeems_code (cfg_secret cfg) x2 k /\ issues_refresh (cfg_secret cfg) x2 f /\
  redeems_refresh (cfg_secret cfg) x3 f /\ issues_access (cfg_secret cfg) x3 a /\ names (cfg_secret cfg) str a /\
  refused_as_unknown (cfg_secret cfg) x4 k /\
  authorize (1004 * second) s (bearer_request str) (Some ["read"]) new_rw = Some (true, new_rw).
Proof. exact c37_refuted. Qed.
Print Assumptions C37_replay_revokes_descendants_refuted.

(** What holds: the tokens issued in the very answer that redeemed the code,
    unless they were issued again later. Missing: the tokens obtained by
    refreshing those. *)
Theorem C37_replay_revokes_direct_partial : forall cfg l s x later y k, history cfg l s ->
  redeems_code (cfg_secret cfg) x k -> In y later -> refused_as_unknown (cfg_secret cfg) y k ->
  (forall sg now r str required w, last_step (fun z => issues_access (cfg_secret cfg) z sg) l x later ->
     unsent w -> bearer r str -> names (cfg_secret cfg) str sg -> exists w', authorize now s r required w = Some (false, w')) /\
  (forall sg ev r s' t, last_step (fun z => issues_refresh (cfg_secret cfg) z sg) l x later ->
     presents_refresh (cfg_secret cfg) r sg -> handle ev s r <> Done s' (OToken t)).
Proof. exact c37_direct. Qed.
Print Assumptions C37_replay_revokes_direct_partial.

Example C37_case : history case_config (case_y3 :: history2) (st_after case_y3) /\
  redeems_code (cfg_secret case_config) case_x2 (sig_of (code_of step1)) /\
  refused_as_unknown (cfg_secret case_config) case_y3 (sig_of (code_of step1)) /\
  last_step (fun z => issues_access (cfg_secret case_config) z (sig_of (access_of step2))) (case_y3 :: history2) case_x2 [case_y3].
Proof.
  split; [exact replay_history3|]. split; [exact redeemed2|]. split; [exact replayed3|]. apply last_access2, not_issued_replay.
Qed.

(** The missing part never holds: a replay changes nothing for an access token
    that was obtained by refreshing. *)
Theorem C37_descendants_survive : forall cfg l s y s' x later f sg k now r str required w,
  history cfg l s -> history cfg (y :: l) s' ->
  last_step (fun z => issues_access (cfg_secret cfg) z sg) l x later ->
  redeems_refresh (cfg_secret cfg) x f -> refused_as_unknown (cfg_secret cfg) y k ->
  bearer r str -> names (cfg_secret cfg) str sg ->
  (exists w', authorize now s' r required w = Some (true, w')) <->
  (exists w', authorize now s r required w = Some (true, w')).
Proof. exact c37_survives. Qed.
Print Assumptions C37_descendants_survive.

Example C37_survive_case : history case_config history3 (after step3) /\
  history case_config (case_x4 :: history3) (st_after case_x4) /\
  last_step (fun z => issues_access (cfg_secret case_config) z (sig_of (access_of step3))) history3 case_x3 [] /\
  redeems_refresh (cfg_secret case_config) case_x3 (sig_of (refresh_of step2)) /\
  refused_as_unknown (cfg_secret case_config) case_x4 (sig_of (code_of step1)).
Proof.
  split; [exact case_history3|]. split; [exact case_history4|]. split; [|split; [exact redeemed3|exact replayed4]].
  exists history2. split; [reflexivity|]. split; [exact issued_access3|]. intros z [].
Qed.

(** C40. *)
Theorem C40_password_presented : forall cfg l s k c, history cfg l s ->
  sv_access s !! k = Some c \/ sv_refresh s !! k = Some c \/ sv_codes s !! k = Some c -> cd_username c <> "" ->
  exists x sc, In x l /\ approves x (cd_client_id c) (cd_username c) sc /\ covers sc (cd_scope c).
Proof. exact c40_passwords. Qed.
Print Assumptions C40_password_presented.

Example C40_case : history case_config history3 (after step3) /\
  exists c, sv_access (after step3) !! sig_of (access_of step3) = Some c /\ cd_username c = "u1" /\ cd_client_id c = "c1".
Proof. split; [exact case_history3|]. eexists. split; [vm_compute; reflexivity|]. split; reflexivity. Qed.

(** C45. *)
Theorem C45_revocation_permanent : forall ev s r s' sg l s'',
  handle ev s r = Done s' ORevoked -> names (server_secret s) (body_param r "token") sg ->
  run s' l s'' -> (forall x, In x l -> ~ issues_access (server_secret s) x sg /\ ~ issues_refresh (server_secret s) x sg) ->
  (forall now r' str required w, unsent w -> bearer r' str -> names (server_secret s) str sg ->
     exists w', authorize now s'' r' required w = Some (false, w')) /\
  (forall ev' r' s3 x, names (server_secret s) (body_param r' "token") sg -> handle ev' s'' r' = Done s3 (OIntro x) -> reports_nothing x) /\
  (forall ev' r' s3 t, presents_refresh (server_secret s) r' sg -> handle ev' s'' r' <> Done s3 (OToken t)).
Proof. exact c45_revoked. Qed.
Print Assumptions C45_revocation_permanent.

Example C45_case : (exists s', revoked = Done s' ORevoked) /\
  body_param (lookup_request "/oauth2/revoke" case_auth (access_of step2)) "token" = access_of step2 /\
  run (after revoked) [case_check] (after revoked) /\
  st_answer case_check = Checked (Denied (InvalidToken "unknown token")).
Proof.
  split; [eexists; vm_compute; reflexivity|]. split; [vm_compute; reflexivity|].
  split; [apply (run_step _ [] (after revoked)), run_nil|]. vm_compute. reflexivity.
Qed.

(** C49. *)
Theorem C49_access_kind : forall cfg l s now r str sg required w w', history cfg l s ->
  bearer r str -> names (cfg_secret cfg) str sg -> authorize now s r required w = Some (true, w') ->
  exists x, In x l /\ issues_access (cfg_secret cfg) x sg.
Proof. exact c49_access. Qed.
Print Assumptions C49_access_kind.

Theorem C49_refresh_kind : forall cfg l s ev r s' t sg, history cfg l s ->
  handle ev s r = Done s' (OToken t) -> presents_refresh (cfg_secret cfg) r sg ->
  exists x, In x l /\ issues_refresh (cfg_secret cfg) x sg.
Proof. exact c49_refresh. Qed.
Print Assumptions C49_refresh_kind.

Theorem C49_code_kind : forall cfg l s ev r s' t sg, history cfg l s ->
  handle ev s r = Done s' (OToken t) -> presents_code (cfg_secret cfg) r sg ->
  exists x ev0 r0, In x l /\ grants_code (cfg_secret cfg) x sg ev0 r0.
Proof. exact c49_code. Qed.
Print Assumptions C49_code_kind.

(** A string that carries a valid signature but was never given out by this
    server, say by one with the same secret before a restart, is worth nothing. *)
Theorem C49_restart : forall cfg l s sg, history cfg l s ->
  (forall x, In x l -> ~ issues_access (cfg_secret cfg) x sg /\ ~ issues_refresh (cfg_secret cfg) x sg /\ ~ issues_code (cfg_secret cfg) x sg) ->
  (forall now r str required w, unsent w -> bearer r str -> names (cfg_secret cfg) str sg ->
     exists w', authorize now s r required w = Some (false, w')) /\
  (forall ev r s' x, names (cfg_secret cfg) (body_param r "token") sg -> handle ev s r = Done s' (OIntro x) -> reports_nothing x) /\
  (forall ev r s', names (cfg_secret cfg) (body_param r "token") sg -> handle ev s r = Done s' ORevoked -> s' = s) /\
  (forall ev r s' t, presents_refresh (cfg_secret cfg) r sg -> handle ev s r <> Done s' (OToken t)) /\
  (forall ev r s' t, presents_code (cfg_secret cfg) r sg -> handle ev s r <> Done s' (OToken t)).
Proof. exact c49_restart. Qed.
Print Assumptions C49_restart.

(** The tokens of [step2] at a server with the same configuration that has only been set up. *)
Example C49_case_restart : history case_config setup case_server /\
  names (cfg_secret case_config) (access_of step2) (sig_of (access_of step2)) /\
  (forall x, In x setup -> ~ issues_access (cfg_secret case_config) x (sig_of (access_of step2)) /\
     ~ issues_refresh (cfg_secret case_config) x (sig_of (access_of step2)) /\ ~ issues_code (cfg_secret case_config) x (sig_of (access_of step2))) /\
  authorize_decision (1002 * second) case_server (bearer_request (access_of step2)) None = Denied (InvalidToken "unknown token") /\
  authorize_decision (1002 * second) (after step2) (bearer_request (access_of step2)) None = Granted.
Proof.
  split; [exact case_setup|]. split; [exact names2|]. split; [|split; vm_compute; reflexivity].
  intros x Hx; split_and!; intros (ev & r & o & Hs & _); exact (setup_silent x ev r o Hx Hs).
Qed.

(** The code used as a bearer token, the refresh token as a code. *)
Example C49_case :
  authorize_decision (1001 * second) (after step1) (bearer_request (code_of step1)) None = Denied (InvalidToken "unknown token") /\
  authorize_decision (1001 * second) (after step2) (bearer_request (refresh_of step2)) None = Denied (InvalidToken "unknown token") /\
  exists e, handle (case_env 1003 rand3) (after step2) (redeem_request case_auth (refresh_of step2)) = Done (after step2) (OError e).
Proof. split; [vm_compute; reflexivity|]. split; [vm_compute; reflexivity|]. eexists. vm_compute. reflexivity. Qed.

(** C50. *)
Theorem C50_authorize_history : forall cfg l s now r str sg required w, history cfg l s ->
  bearer r str -> names (cfg_secret cfg) str sg ->
  (exists w', authorize now s r required w = Some (true, w')) <->
  (exists x later ev r0 t, last_step (fun y => issues_access (cfg_secret cfg) y sg) l x later /\
     served x ev r0 (OToken t) /\ covers (tr_scope t) required /\
     (now <= ev_now_access ev + cfg_access_lifespan cfg)%Z /\
     forall y, In y later -> ~ ends_access (cfg_secret cfg) x y sg).
Proof. exact c50_access. Qed.
Print Assumptions C50_authorize_history.

Example C50_case : history case_config (case_y3 :: history2) (st_after case_y3) /\
  bearer (bearer_request (access_of step2)) (access_of step2) /\
  names (cfg_secret case_config) (access_of step2) (sig_of (access_of step2)) /\
  ends_access (cfg_secret case_config) case_x2 case_y3 (sig_of (access_of step2)).
Proof.
  split; [exact replay_history3|]. split; [apply case_bearer; exact fact2|]. split; [exact names2|].
  right. left. exists (sig_of (code_of step1)). split; [exact redeemed2|exact replayed3].
Qed.

(** C60. *)
Theorem C60_refresh_history : forall cfg l s ev r sg id, history cfg l s ->
  complete_token_request r -> from_client s r id -> presents_refresh (cfg_secret cfg) r sg -> enough_random ev s 2 ->
  (exists s' t, handle ev s r = Done s' (OToken t)) <->
  (exists x later ev0 r0 t0,
     last_step (fun y => issues_refresh (cfg_secret cfg) y sg /\ ~ redeems_refresh (cfg_secret cfg) y sg) l x later /\
     served x ev0 r0 (OToken t0) /\ acts_for r0 id /\
     covers (tr_scope t0) (parse_scope (body_param r "scope")) /\
     (ev_now_check ev <= ev_now_refresh ev0 + cfg_refresh_lifespan cfg)%Z /\
     forall y, In y later -> ~ ends_refresh (cfg_secret cfg) x y sg).
Proof. exact c60_refresh. Qed.
Print Assumptions C60_refresh_history.

Example C60_case : history case_config history2 (after step2) /\
  complete_token_request (refresh_request case_auth (refresh_of step2)) /\
  from_client (after step2) (refresh_request case_auth (refresh_of step2)) "c1" /\
  presents_refresh (cfg_secret case_config) (refresh_request case_auth (refresh_of step2)) (sig_of (refresh_of step2)) /\
  enough_random (case_env 1002 rand3) (after step2) 2.
Proof.
  split; [exact case_history2|]. split; [|split; [apply case_from; vm_compute; reflexivity|]].
  - split; [apply (case_endpoint _ _ "token")|]. split; [eexists; vm_compute; reflexivity|]. do 3 right. left. vm_compute. reflexivity.
  - split; [exact presented3|]. split; vm_compute; discriminate.
Qed.

(** C61. *)
Theorem C61_code_history : forall cfg l s ev r sg id, history cfg l s ->
  complete_token_request r -> from_client s r id -> presents_code (cfg_secret cfg) r sg -> enough_random ev s 2 ->
  (exists s' t, handle ev s r = Done s' (OToken t)) <->
  (exists x later ev0 r0 c0,
     last_step (fun y => issues_code (cfg_secret cfg) y sg) l x later /\
     served x ev0 r0 (OCode c0) /\ form_param r0 "client_id" = id /\
     query_unescape (form_param r0 "redirect_uri") = query_unescape (body_param r "redirect_uri") /\
     (ev_now_check ev <= ev_now_code ev0 + cfg_code_lifespan cfg)%Z /\
     forall y, In y later -> ~ redeems_code (cfg_secret cfg) y sg).
Proof. exact c61_code. Qed.
Print Assumptions C61_code_history.

Example C61_case : history case_config history1 (after step1) /\
  complete_token_request (redeem_request case_auth (code_of step1)) /\
  from_client (after step1) (redeem_request case_auth (code_of step1)) "c1" /\
  presents_code (cfg_secret case_config) (redeem_request case_auth (code_of step1)) (sig_of (code_of step1)) /\
  enough_random (case_env 1001 rand2) (after step1) 2.
Proof.
  split; [exact case_history1|]. split; [apply case_redeem_complete; [reflexivity|by left]|].
  split; [apply case_from; vm_compute; reflexivity|]. split; [exact presented2|]. split; vm_compute; discriminate.
Qed.

(** C66. What introspection says, from the visible history alone. *)
Theorem C66_introspection_history : forall cfg l s ev r id sg, history cfg l s ->
  complete_introspection r -> from_client s r id -> names (cfg_secret cfg) (body_param r "token") sg ->
  let access := still_access (cfg_secret cfg) l sg in
  let refresh := still_refresh (cfg_secret cfg) l sg in
  ((exists x, handle ev s r = Done s (OIntro x) /\ reports_nothing x) <->
   forall ev0 r0 t0, ~ access ev0 r0 t0 /\ ~ refresh ev0 r0 t0) /\
  (handle ev s r = Done s (OError (InvalidClient "wrong client")) <->
   exists ev0 r0 t0, (access ev0 r0 t0 \/ refresh ev0 r0 t0) /\ ~ acts_for r0 id) /\
  (forall sc expires,
   (exists x, handle ev s r = Done s (OIntro x) /\ ir_token_type x = "access_token" /\ tells x id sc expires) <->
   exists ev0 r0 t0, access ev0 r0 t0 /\ acts_for r0 id /\ (forall ev1 r1 t1, ~ refresh ev1 r1 t1) /\
     sc = tr_scope t0 /\ ((ev_now_access ev0 + cfg_access_lifespan cfg) / 1000000000 = expires / 1000000000)%Z) /\
  (forall sc expires,
   (exists x, handle ev s r = Done s (OIntro x) /\ ir_token_type x = "refresh_token" /\ tells x id sc expires) <->
   exists ev0 r0 t0, refresh ev0 r0 t0 /\ acts_for r0 id /\ (forall ev1 r1 t1, access ev1 r1 t1 -> acts_for r1 id) /\
     sc = tr_scope t0 /\ ((ev_now_refresh ev0 + cfg_refresh_lifespan cfg) / 1000000000 = expires / 1000000000)%Z).
Proof. exact c66_introspection. Qed.
Print Assumptions C66_introspection_history.

Example C66_case :
  let r := lookup_request "/oauth2/introspect" case_auth (access_of step2) in
  history case_config history2 (after step2) /\ complete_introspection r /\ from_client (after step2) r "c1" /\
  names (cfg_secret case_config) (body_param r "token") (sig_of (access_of step2)) /\
  (exists ev0 r0 t0, still_access (cfg_secret case_config) history2 (sig_of (access_of step2)) ev0 r0 t0) /\
  (exists x, last_step (fun z => issues_access (cfg_secret case_config) z (sig_of (access_of step2))) (case_y3 :: history2) x [case_y3] /\
     ends_access (cfg_secret case_config) x case_y3 (sig_of (access_of step2))).
Proof.
  split; [exact case_history2|].
  split; [split; [apply (case_endpoint _ _ "introspect")|split; [eexists; vm_compute; reflexivity|left; vm_compute; reflexivity]]|].
  split; [apply case_from; vm_compute; reflexivity|]. split; [exact case_lookup_names|]. split.
  - destruct served2 as (s & t & _ & _ & _ & Hs). eexists _, _, t, case_x2, []. split; [|split; [exact Hs|by intros y []]].
    exists history1. split; [reflexivity|]. split; [exact issued_access2|by intros y []].
  - exists case_x2. split; [apply last_access2, not_issued_replay|].
    right. left. exists (sig_of (code_of step1)). split; [exact redeemed2|exact replayed3].
Qed.
