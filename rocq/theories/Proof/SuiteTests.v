(** The server passes the single requests and the tests. *)
From Verif.Model Require Import Client Suite.
From Verif.Spec Require Import TokenSpec ScopeSpec WireSpec RequestSpec ServerSpec NumberSpec SuiteSpec.
From Verif.Proof Require Import StrFacts Base64Facts HsFacts TokenProofs UrlFacts UrlParse DecFacts JsonFacts CodecFacts CodecProofs
  ScopeFacts ScopeProofs WireFacts WireProofs Redirect ServerFacts Steps RequestProofs RequestParse ServerProofs GrantProofs
  EffectProofs Effects ClientProofs SuiteFacts SuiteSteps SuiteReach.

#[local] Opaque parse_token token_outcome.

Section Tests.
Context (resource : string -> bool) (required : scope) (sp : spec) (s0 : server) (t0 t1 : Z)
  (evs0 : list env) (uri : string) (l : list string).
Hypothesis complete : complete_spec sp.
Hypothesis at_token : leads_to resource (sp_token sp) "token".
Hypothesis at_authorize : leads_to resource (sp_authorize sp) "authorize".
Hypothesis at_introspect : sp_introspection sp = "" \/ leads_to resource (sp_introspection sp) "introspect".
Hypothesis at_revoke : sp_revocation sp = "" \/ leads_to resource (sp_revocation sp) "revoke".
Hypothesis at_resource : exists u, url_parse (sp_resource sp) = Some u /\ resource (u_path u) = true.
Hypothesis clients : clients_described sp s0 uri.
Hypothesis scopes : scopes_described sp s0 required l.
Hypothesis users : users_described sp s0.
Hypothesis redirects : redirects_described sp uri.
Hypothesis tokens : tokens_described sp s0 required t0 t1.
Hypothesis refreshes : refresh_described sp s0 l t0 t1.
Hypothesis codes : codes_described sp s0 t0.
Hypothesis lifespan_int : int64 (cfg_access_lifespan (sv_config s0)).
Hypothesis lifespan : sp_expires_in sp = Z.quot (cfg_access_lifespan (sv_config s0)) 1000000000.
Hypothesis times : Forall (in_time s0 t0 t1) evs0.
Hypothesis random : fresh_randomness sp s0 evs0.

Let sec := server_secret s0.
Let h := mounted resource required.
Notation reach := (SuiteReach.reach sp s0 evs0).
Notation live_access := (SuiteReach.live_access sp s0 t1 required).
Notation live_refresh := (SuiteReach.live_refresh sp s0 t1 l).
Notation touchable := (SuiteReach.touchable sp s0).

Lemma r_time X s ev evs : reach X s (ev :: evs) -> in_time s0 t0 t1 ev.
Proof. exact (reach_time sp s0 t0 t1 evs0 times random X s ev evs). Qed.
Lemma r_issue X s ev evs sc client user code : reach X s (ev :: evs) ->
  exists s' t a f, issue_tokens ev s true sc client user code = Some (s', t) /\
    both_issued s0 evs0 s s' t ev sc client user code a f /\ reach X s' evs /\
    sv_access s !! a = None /\ sv_refresh s !! a = None /\ sv_access s !! f = None /\ sv_refresh s !! f = None /\
    sv_codes s !! a = None /\ sv_codes s !! f = None.
Proof. exact (issue_both_ok sp s0 t0 t1 evs0 required l times random tokens refreshes codes X s ev evs sc client user code). Qed.
Lemma r_now X s ev evs : reach X s (ev :: evs) -> (t0 <= ev_now_check ev <= t1)%Z /\ (t1 <= ev_now_code ev + cfg_code_lifespan (sv_config s0))%Z.
Proof. intros Hr. pose proof (r_time X s ev evs Hr) as Ht. unfold in_time in Ht. cbv zeta in Ht. lia. Qed.
Lemma r_drawn X k : In k (flat_map (draws s0) evs0) -> touchable X k.
Proof. exact (drawn_touchable sp s0 t0 t1 evs0 required l random tokens refreshes codes X k). Qed.

(** ** What is given *)
Lemma client_named : sp_client sp <> "" /\ without ":" (sp_client sp).
Proof. destruct complete as [H _]. rewrite !Forall_cons in H. split; [tauto|]. by destruct clients as (_ & _ & ? & _). Qed.
Lemma public_named : sp_public sp <> "" /\ without ":" (sp_public sp).
Proof. destruct complete as [H _]. rewrite !Forall_cons in H. split; [tauto|]. by destruct clients as (_ & _ & _ & _ & _ & ? & _). Qed.

Lemma conf_client s : same_registry s0 s -> exists c, sv_clients s !! sp_client sp = Some c /\
  client_ok c (sp_secret sp) = true /\ client_ok c "invalid" = false /\ client_ok c "" = false /\
  en_confidential c = true /\ en_redirect_uri c = uri.
Proof.
  intros (_ & Hc & _). rewrite Hc. destruct clients as ((c & H1 & H2 & H3 & H4) & H5 & _).
  exists c. split; [done|]. unfold client_ok. rewrite H2, H3, seqb_same.
  split; [done|]. split; [by rewrite (ne_seqb _ _ H5)|]. split; [|done].
  rewrite (ne_seqb (sp_secret sp) ""); [done|]. destruct complete as [H _]. rewrite !Forall_cons in H. tauto.
Qed.
Lemma public_client s secret : same_registry s0 s -> exists c, sv_clients s !! sp_public sp = Some c /\
  client_ok c secret = true /\ en_confidential c = false.
Proof.
  intros (_ & Hc & _). rewrite Hc. destruct clients as (_ & _ & _ & _ & (c & H1 & H2) & _).
  exists c. split; [done|]. unfold client_ok. by rewrite H2.
Qed.
Lemma other_client : sp_client sp <> sp_public sp.
Proof.
  destruct clients as ((c & H1 & H2 & _) & _ & _ & _ & (c' & H1' & H2') & _). intros He. rewrite He in H1. congruence.
Qed.
Lemma no_client s : same_registry s0 s -> sv_clients s !! "unknown" = None /\ sv_clients s !! "invalid" = None.
Proof. intros (_ & Hc & _). rewrite Hc. by destruct clients as (_ & _ & _ & _ & _ & _ & ? & ?). Qed.

Lemma scope_text sc : items sc = l -> scope_string sc = sp_valid_scope sp.
Proof. intros H. destruct scopes as (-> & _). unfold scope_string. by rewrite H. Qed.
Lemma valid_scope_items : items (parse_scope (sp_valid_scope sp)) = l.
Proof.
  destruct scopes as (Hs & Hne & Hg & _). rewrite Hs. exact (proj2 (c08_proof (Some l)) Hg).
Qed.
Lemma valid_scope_allowed s : same_registry s0 s ->
  scope_includes (cfg_allowed_scope (sv_config s)) (parse_scope (sp_valid_scope sp)) = true.
Proof.
  intros (Hc & _). rewrite Hc. apply covers_spec. unfold covers. rewrite valid_scope_items. by destruct scopes as (_ & _ & _ & _ & ? & _).
Qed.
Lemma bad_scope s x : same_registry s0 s -> x = sp_invalid_scope sp \/ x = sp_exceeding_scope sp ->
  scope_includes (cfg_allowed_scope (sv_config s)) (parse_scope x) = false.
Proof.
  intros (Hc & _) Hx. rewrite Hc. apply not_true_is_false. rewrite <- covers_spec.
  destruct scopes as (_ & _ & _ & _ & _ & _ & H1 & H2). destruct Hx as [-> | ->]; [exact H1|exact H2].
Qed.
Lemma required_granted : incl (items required) l.
Proof. by destruct scopes as (_ & _ & _ & _ & _ & ? & _). Qed.
Lemma scope_utf8 : Forall valid_utf8 l.
Proof. by destruct scopes as (_ & _ & _ & ? & _). Qed.
Lemma scope_some : l <> [].
Proof. by destruct scopes as (_ & ? & _). Qed.

Lemma secret_of s : same_registry s0 s -> cfg_secret (sv_config s) = sec.
Proof. intros (Hc & _). by rewrite Hc. Qed.
Lemma parsed s str sg : same_registry s0 s -> names sec str sg ->
  exists t, parse_token (cfg_secret (sv_config s)) str = inl t /\ signature_string t = sg.
Proof. intros Hr Hn. rewrite (secret_of s Hr). apply names_spec in Hn as (t & H1 & ->). by exists t. Qed.
Lemma unparsed s str : same_registry s0 s -> not_a_token s0 str ->
  exists msg, parse_token (cfg_secret (sv_config s)) str = inr msg /\ ascii_only msg = true.
Proof.
  intros Hr Hn. rewrite (secret_of s Hr). destruct (parse_token sec str) as [t|msg] eqn:E.
  - exfalso. apply (Hn (signature_string t)). by apply names_parsed.
  - exists msg. split; [done|]. by eapply parse_token_message.
Qed.

(** ** Error documents *)
Lemma safe_expect_error n evs s e w status name rest : error_answer e w -> e_status e = status -> e_name e = name ->
  safe h n evs s rest -> safe h n evs s (expect_error status name rest w).
Proof.
  intros [H1 H2] <- <- Hs. unfold expect_error, check_code, check_json. apply safe_check; [rewrite H1; apply Z.eqb_refl|].
  apply safe_check; [rewrite H2; apply seqb_same|exact Hs].
Qed.
Lemma safe_expect_refused n evs s d w rest : error_answer (InvalidClient d) w -> auth_param w "realm" = Some "OAuth2" ->
  safe h n evs s rest -> safe h n evs s (expect_refused rest w).
Proof.
  intros [H1 H2] H3 Hs. unfold expect_refused, check_code, check_json. apply safe_check; [rewrite H1; reflexivity|].
  apply safe_check; [rewrite H2; reflexivity|]. eapply safe_some; [exact H3|reflexivity|exact Hs].
Qed.

Lemma error_step X s evs n q r e status name rest :
  do_request q = Some r -> plain_error e -> e_status e = status -> e_name e = name ->
  (forall ev, in_time s0 t0 t1 ev -> h ev s r = respond (Done s (OError e))) ->
  reach X s evs -> (forall evs', reach X s evs' -> safe h n evs' s rest) ->
  safe h (S n) evs s (Send q (expect_error status name rest)).
Proof.
  intros Hd He Hs Hn Ho Hr Hk. destruct (error_answer_plain e He) as (w & Hw & Ha & _).
  apply (safe_send h n evs s q _ r Hd). intros ev evs' ->. exists s, w.
  rewrite (Ho ev (r_time X s ev evs' Hr)). cbn [respond]. rewrite Hw. split; [done|].
  apply (safe_expect_error n evs' s e); try done. apply Hk. by apply reach_tail in Hr.
Qed.
Lemma refused_step X s evs n q r d rest :
  do_request q = Some r -> ascii_only d = true ->
  (forall ev, in_time s0 t0 t1 ev -> h ev s r = respond (Done s (OError (InvalidClient d)))) ->
  reach X s evs -> (forall evs', reach X s evs' -> safe h n evs' s rest) ->
  safe h (S n) evs s (Send q (expect_refused rest)).
Proof.
  intros Hd He Ho Hr Hk. destruct (error_answer_plain _ (plain_invalid_client d He)) as (w & Hw & Ha & Hp).
  apply (safe_send h n evs s q _ r Hd). intros ev evs' ->. exists s, w.
  rewrite (Ho ev (r_time X s ev evs' Hr)). cbn [respond]. rewrite Hw. split; [done|].
  apply (safe_expect_refused n evs' s d); try done; [by apply Hp|]. apply Hk. by apply reach_tail in Hr.
Qed.

(** ** The token endpoint *)
Lemma token_error X s evs n id secret form ru e status name rest :
  id <> "" -> without ":" id -> pget form "grant_type" <> "" -> takes (pget form "redirect_uri") ru ->
  plain_error e -> e_status e = status -> e_name e = name ->
  (forall ev, in_time s0 t0 t1 ev -> token_outcome ev s (tokreq id secret form ru) = Done s (OError e)) ->
  reach X s evs -> (forall evs', reach X s evs' -> safe h n evs' s rest) ->
  safe h (S n) evs s (Send (post_as id secret (sp_token sp) form) (expect_error status name rest)).
Proof.
  intros Hid Hw Hg Hu He Hs Hn Ho Hr Hk.
  destruct (token_request_step resource required id secret (sp_token sp) form ru at_token Hid Hw Hg Hu) as (r & Hd & Hm).
  apply (error_step X s evs n _ r e); try done. intros ev Hev. unfold h. rewrite Hm. by rewrite Ho.
Qed.
Lemma token_refused X s evs n id secret form ru d rest :
  id <> "" -> without ":" id -> pget form "grant_type" <> "" -> takes (pget form "redirect_uri") ru ->
  ascii_only d = true ->
  (forall ev, in_time s0 t0 t1 ev -> token_outcome ev s (tokreq id secret form ru) = Done s (OError (InvalidClient d))) ->
  reach X s evs -> (forall evs', reach X s evs' -> safe h n evs' s rest) ->
  safe h (S n) evs s (Send (post_as id secret (sp_token sp) form) (expect_refused rest)).
Proof.
  intros Hid Hw Hg Hu He Ho Hr Hk.
  destruct (token_request_step resource required id secret (sp_token sp) form ru at_token Hid Hw Hg Hu) as (r & Hd & Hm).
  apply (refused_step X s evs n _ r d); try done. intros ev Hev. unfold h. rewrite Hm. by rewrite Ho.
Qed.

(** What a successful grant hands out. *)
Lemma token_success X s evs n id secret form ru k :
  id <> "" -> without ":" id -> pget form "grant_type" <> "" -> takes (pget form "redirect_uri") ru ->
  reach X s evs ->
  (forall ev evs', reach X s (ev :: evs') -> exists s' t,
     token_outcome ev s (tokreq id secret form ru) = Done s' (OToken t) /\
     items (tr_scope t) = l /\ tr_token_type t = "bearer" /\ tr_state t = "" /\ tr_redirect_uri t = "" /\
     tr_expires_in t = Z.quot (cfg_access_lifespan (sv_config s0)) 1000000000 /\
     valid_utf8 (tr_access_token t) /\ valid_utf8 (tr_refresh_token t) /\
     tr_access_token t <> "" /\ tr_refresh_token t <> "" /\
     safe h n evs' s' (k (tr_access_token t) (tr_refresh_token t))) ->
  safe h (S n) evs s (Send (post_as id secret (sp_token sp) form) (expect_tokens sp k)).
Proof.
  intros Hid Hw Hg Hu Hr Hk.
  destruct (token_request_step resource required id secret (sp_token sp) form ru at_token Hid Hw Hg Hu) as (r & Hd & Hm).
  apply (safe_send h n evs s _ _ r Hd). intros ev evs' ->.
  destruct (Hk ev evs' Hr) as (s' & t & Ho & Hsc & Htt & Hst & Hru & Hex & Hv1 & Hv2 & Hn1 & Hn2 & Hs).
  destruct (token_answer_written t) as (w & Hww & Hc & Ht & Hss & He & Ha & Hf); try done.
  - rewrite Htt. by apply ascii_utf8.
  - rewrite Hsc. apply scope_some.
  - rewrite Hsc. apply scope_utf8.
  - rewrite Hex. by apply quot_int64.
  - exists s', w. unfold h. rewrite Hm, Ho. cbn [respond]. rewrite Hww. split; [done|].
    unfold expect_tokens, check_code, check_json.
    apply safe_check; [rewrite Hc; reflexivity|]. apply safe_check; [rewrite Ht, Htt; reflexivity|].
    apply safe_check; [rewrite Hss, (scope_text _ Hsc); apply seqb_same|].
    apply safe_check; [by rewrite lifespan, <- Hex|]. cbv zeta.
    apply safe_check; [rewrite Ha; unfold not_empty; by rewrite (ne_seqb _ "")|].
    apply safe_check; [rewrite Hf; unfold not_empty; by rewrite (ne_seqb _ "")|].
    by rewrite Ha, Hf.
Qed.

(** The dispatch for the two clients. *)
#[local] Transparent token_outcome.
Lemma conf_dispatch ev s form ru : same_registry s0 s -> known_grant_type (pget form "grant_type") = true ->
  token_outcome ev s (tokreq (sp_client sp) (sp_secret sp) form ru) =
  let req := tokreq (sp_client sp) (sp_secret sp) form ru in
  if seqb (pget form "grant_type") PasswordGrantType then handle_password ev s req
  else if seqb (pget form "grant_type") ClientCredentialsGrantType then handle_client_credentials ev s req
  else if seqb (pget form "grant_type") AuthorizationCodeGrantType then handle_code ev s req
  else handle_refresh ev s req.
Proof.
  intros Hr Hg. unfold token_outcome. cbn [tq_grant_type tq_client_id tq_client_secret tokreq]. rewrite Hg.
  destruct (conf_client s Hr) as (c & -> & -> & _). reflexivity.
Qed.
Lemma public_dispatch ev s form ru secret : same_registry s0 s -> known_grant_type (pget form "grant_type") = true ->
  token_outcome ev s (tokreq (sp_public sp) secret form ru) =
  let req := tokreq (sp_public sp) secret form ru in
  if seqb (pget form "grant_type") PasswordGrantType then handle_password ev s req
  else if seqb (pget form "grant_type") ClientCredentialsGrantType then handle_client_credentials ev s req
  else if seqb (pget form "grant_type") AuthorizationCodeGrantType then handle_code ev s req
  else handle_refresh ev s req.
Proof.
  intros Hr Hg. unfold token_outcome. cbn [tq_grant_type tq_client_id tq_client_secret tokreq]. rewrite Hg.
  destruct (public_client s secret Hr) as (c & -> & -> & _). reflexivity.
Qed.
Lemma wrong_secret ev s form ru : same_registry s0 s -> known_grant_type (pget form "grant_type") = true ->
  token_outcome ev s (tokreq (sp_client sp) "invalid" form ru) = Done s (OError (InvalidClient "unknown client")).
Proof.
  intros Hr Hg. unfold token_outcome. cbn [tq_grant_type tq_client_id tq_client_secret tokreq]. rewrite Hg.
  destruct (conf_client s Hr) as (c & -> & _ & -> & _). reflexivity.
Qed.
#[local] Opaque token_outcome.

(** ** The protected resource *)
Lemma bearer_parsed r tok : rq_auth r = "Bearer " +:+ tok -> tok <> "" -> parse_bearer_token r = BToken tok.
Proof. intros Ha Ht. apply bearer_spec. exists "Bearer". split; [exact Ha|]. split; [|exact Ht]. unfold same_ignoring_case. repeat (constructor; [by apply same_letter_lower|]). constructor. Qed.

Lemma resource_request hdr : exists r, do_request (get_resource sp hdr) = Some r /\ rq_auth r = hdr /\
  forall ev s, h ev s r =
      match authorize (ev_now_check ev) s r required new_rw with
      | None => (s, None) | Some (false, w) => (s, Some w)
      | Some (true, w) => (s, option_map fst (write_bytes w "OK"))
      end.
Proof.
  destruct at_resource as (u & Hu & Hr).
  destruct (resource_request_step resource required (sp_resource sp) u {[ "Authorization" := hdr ]} ∅ Hu Hr) as (r & H1 & H2 & H3).
  exists r. split; [exact H1|]. split; [|exact H3]. rewrite H2. apply header_auth.
Qed.

Lemma accepts_step X s evs n tok sg rest : reach X s evs -> live_access s tok sg ->
  (forall evs', reach X s evs' -> safe h n evs' s rest) ->
  safe h (S n) evs s (resource_accepts sp tok rest).
Proof.
  intros Hr [Hn (c & Ha & _ & _ & Ht & Hc & _)] Hk.
  destruct (resource_request ("Bearer " +:+ tok)) as (r & Hd & Hau & Hh).
  apply (safe_send h n evs s _ _ r Hd). intros ev evs' ->.
  assert (Hne : tok <> "") by (intros ->; by apply names_empty in Hn).
  destruct (parsed s tok sg (re_registry _ _ _ _ _ _ Hr) Hn) as (t & Hp & Hsg).
  pose proof (r_now X s ev evs' Hr) as ((_ & T1) & _).
  exists s. rewrite Hh. unfold authorize, authorize_decision. rewrite (bearer_parsed r tok Hau Hne), Hp, Hsg, Ha.
  replace (cd_expires_at c <? ev_now_check ev)%Z with false by lia. rewrite (proj1 (covers_spec _ _) Hc). cbn [negb].
  eexists. split; [reflexivity|]. unfold expect_code, check_code. apply safe_check; [reflexivity|].
  apply Hk. by apply reach_tail in Hr.
Qed.

(** A request the resource refuses. *)
Lemma denied_step X s evs n hdr r e k : reach X s evs ->
  do_request (get_resource sp hdr) = Some r ->
  (forall ev, in_time s0 t0 t1 ev -> h ev s r =
      match authorize (ev_now_check ev) s r required new_rw with
      | None => (s, None) | Some (false, w) => (s, Some w)
      | Some (true, w) => (s, option_map fst (write_bytes w "OK"))
      end) ->
  (forall ev, in_time s0 t0 t1 ev -> authorize_decision (ev_now_check ev) s r required = Denied e) ->
  (exists w, write_bearer_error new_rw (GErr e) = Some (w, true) /\ bearer_answer e w) ->
  (forall evs' w, reach X s evs' -> bearer_answer e w -> safe h n evs' s (k w)) ->
  safe h (S n) evs s (Send (get_resource sp hdr) k).
Proof.
  intros Hr Hd Hh Hden (w & Hw & Hb) Hk. apply (safe_send h n evs s _ _ r Hd). intros ev evs' ->.
  exists s, w. rewrite Hh by (by apply (r_time X s ev evs')). unfold authorize.
  rewrite Hden by (by apply (r_time X s ev evs')). rewrite Hw. split; [done|]. apply Hk; [by apply reach_tail in Hr|done].
Qed.

(** A token that is not stored. *)
Lemma unstored_step X s evs n tok sg k : reach X s evs -> names sec tok sg -> sv_access s !! sg = None ->
  (forall evs' w, reach X s evs' -> bearer_answer (InvalidToken "unknown token") w -> safe h n evs' s (k w)) ->
  safe h (S n) evs s (Send (get_resource sp ("Bearer " +:+ tok)) k).
Proof.
  intros Hr Hn Ha Hk. destruct (resource_request ("Bearer " +:+ tok)) as (r & Hd & Hau & Hh).
  assert (Hne : tok <> "") by (intros ->; by apply names_empty in Hn).
  destruct (parsed s tok sg (re_registry _ _ _ _ _ _ Hr) Hn) as (t & Hp & Hsg).
  apply (denied_step X s evs n _ r (InvalidToken "unknown token")); try done.
  - intros ev _. unfold authorize_decision. rewrite (bearer_parsed r tok Hau Hne), Hp, Hsg, Ha. done.
  - apply bearer_closed. cbn. tauto.
Qed.

Lemma refuses_step X s evs n tok sg rest : reach X s evs -> names sec tok sg -> sv_access s !! sg = None ->
  (forall evs', reach X s evs' -> safe h n evs' s rest) ->
  safe h (S n) evs s (resource_refuses sp tok rest).
Proof.
  intros Hr Hn Ha Hk. apply (unstored_step X s evs n tok sg); try done. intros evs' w Hr' (H1 & H2 & H3).
  unfold check_code. apply safe_check; [rewrite H1; reflexivity|]. eapply safe_some; [exact H3|reflexivity|]. by apply Hk.
Qed.

(** ** Lookups *)
Lemma conf_lookup s form sg : same_registry s0 s -> names sec (pget form "token") sg ->
  pget form "token_type_hint" = "" \/ pget form "token_type_hint" = "access_token" \/ pget form "token_type_hint" = "refresh_token" ->
  exists t, lookup_outcome s form (sp_client sp) (sp_secret sp) = inl t /\ signature_string t = sg.
Proof.
  intros Hr Hn Hh. destruct (parsed s _ sg Hr Hn) as (t & Hp & Hsg). exists t. split; [|done].
  unfold lookup_outcome. cbv zeta.
  assert ((negb (seqb (pget form "token_type_hint") "") && negb (known_token_type (pget form "token_type_hint"))) = false) as ->
    by (destruct Hh as [-> |[-> | ->]]; reflexivity).
  destruct (conf_client s Hr) as (c & -> & -> & _). cbn [negb]. by rewrite Hp.
Qed.

Lemma introspect_step X s evs n form sg w (k : rw -> suite) : sp_introspection sp <> "" -> reach X s evs ->
  names sec (pget form "token") sg ->
  pget form "token_type_hint" = "" \/ pget form "token_type_hint" = "access_token" \/ pget form "token_type_hint" = "refresh_token" ->
  (exists i, write_outcome new_rw (OIntro i) = Some w /\
    ((sv_access s !! sg = None /\ sv_refresh s !! sg = None /\ i = new_introspection_response false None "" "" "") \/
     (exists c, sv_access s !! sg = Some c /\ cd_client_id c = sp_client sp /\ sv_refresh s !! sg = None /\ i = describe c AccessToken) \/
     (exists c, sv_refresh s !! sg = Some c /\ cd_client_id c = sp_client sp /\ sv_access s !! sg = None /\ i = describe c RefreshToken))) ->
  (forall evs', reach X s evs' -> safe h n evs' s (k w)) ->
  safe h (S n) evs s (Send (post_conf sp (sp_introspection sp) form) k).
Proof.
  intros Hi Hr Hn Hh (i & Hw & Hi') Hk.
  assert (Hl : leads_to resource (sp_introspection sp) "introspect") by (destruct at_introspect; done).
  destruct client_named as [Hc1 Hc2].
  assert (Hne : pget form "token" <> "") by (intros He; rewrite He in Hn; by apply names_empty in Hn).
  destruct (introspect_request_step resource required (sp_client sp) (sp_secret sp) (sp_introspection sp) form Hl Hc1 Hc2 Hne) as (r & Hd & Hm).
  apply (safe_send h n evs s _ _ r Hd). intros ev evs' ->. exists s, w. destruct (Hm ev s) as [Hm1 Hm2]. unfold h.
  split; [|apply Hk; by apply reach_tail in Hr]. rewrite Hm1.
  destruct (conf_lookup s form sg (re_registry _ _ _ _ _ _ Hr) Hn Hh) as (t & Hlo & Hsg). rewrite Hlo in Hm2.
  unfold introspection_endpoint. rewrite Hm2, Hsg. cbv zeta. cbn [lq_client_id lookreq].
  destruct Hi' as [(Ha & Hf & ->)|[(c & Ha & Hcl & Hf & ->)|(c & Hf & Hcl & Ha & ->)]]; rewrite Ha, Hf;
    rewrite ?Hcl, ?seqb_same; cbn [negb respond]; by rewrite Hw.
Qed.

Lemma hint_ok k : k = "access_token" \/ k = "refresh_token" -> k = "" \/ k = "access_token" \/ k = "refresh_token".
Proof. tauto. Qed.
Lemma token_form_get tok kind : pget (token_form tok kind) "token" = tok /\ pget (token_form tok kind) "token_type_hint" = kind.
Proof. split; reflexivity. Qed.
Lemma plain_form_get tok : pget (plain_token_form tok) "token" = tok /\ pget (plain_token_form tok) "token_type_hint" = "".
Proof. split; reflexivity. Qed.

Lemma active_step X s evs n tok sg kind rest : reach X s evs ->
  (kind = "access_token" /\ live_access s tok sg) \/ (kind = "refresh_token" /\ live_refresh s tok sg) ->
  (forall evs', reach X s evs' -> safe h n evs' s rest) ->
  safe h (S n) evs s (introspects_active sp tok kind rest).
Proof.
  intros Hr Hlive Hk. unfold introspects_active. destruct (seqb (sp_introspection sp) "") eqn:Ei.
  { apply (safe_mono h n); [lia|]. by apply Hk. }
  apply seqb_false in Ei.
  assert (Hx : exists c, readable c /\ cd_client_id c = sp_client sp /\ names sec tok sg /\
    (kind = "access_token" \/ kind = "refresh_token") /\
    ((kind = "access_token" /\ sv_access s !! sg = Some c /\ sv_refresh s !! sg = None) \/
     (kind = "refresh_token" /\ sv_refresh s !! sg = Some c /\ sv_access s !! sg = None))).
  { destruct Hlive as [[-> [Hn (c & H1 & H2 & H3 & H4 & H5 & H6)]]|[-> [Hn (c & H1 & H2 & H3 & H4 & H5 & H6)]]]; exists c; tauto. }
  destruct Hx as (c & Hrd & Hcl & Hn & Hkind & Hc).
  assert (Hid : valid_utf8 (cd_client_id c)) by (rewrite Hcl; by destruct clients as (_ & _ & _ & ? & _)).
  destruct (intro_answer_active c kind Hrd Hid Hkind) as (w & Hw & Hc1 & Hc2 & Hc3).
  destruct (token_form_get tok kind) as [G1 G2].
  apply (introspect_step X s evs n (token_form tok kind) sg w); try done.
  - rewrite G2. by apply hint_ok.
  - exists (describe c kind). split; [done|]. right.
    destruct Hc as [(-> & H1 & H2)|(-> & H1 & H2)]; [left|right]; exists c; done.
  - intros evs' Hr'. unfold check_code, check_json. apply safe_check; [rewrite Hc1; reflexivity|].
    apply safe_check; [rewrite Hc2; reflexivity|]. apply safe_check; [rewrite Hc3; apply seqb_same|]. by apply Hk.
Qed.

Lemma inactive_step X s evs n tok sg kind rest : reach X s evs -> kind = "access_token" \/ kind = "refresh_token" ->
  names sec tok sg -> sv_access s !! sg = None -> sv_refresh s !! sg = None ->
  (forall evs', reach X s evs' -> safe h n evs' s rest) ->
  safe h (S n) evs s (introspects_inactive sp tok kind rest).
Proof.
  intros Hr Hkind Hn Ha Hf Hk. unfold introspects_inactive. destruct (seqb (sp_introspection sp) "") eqn:Ei.
  { apply (safe_mono h n); [lia|]. by apply Hk. }
  apply seqb_false in Ei. destruct intro_answer_inactive as (w & Hw & Hc1 & Hc2).
  destruct (token_form_get tok kind) as [G1 G2].
  apply (introspect_step X s evs n (token_form tok kind) sg w); try done.
  - rewrite G2. by apply hint_ok.
  - eexists. split; [exact Hw|]. left. done.
  - intros evs' Hr'. unfold check_code. apply safe_check; [rewrite Hc1; reflexivity|].
    apply safe_check; [rewrite Hc2; reflexivity|]. by apply Hk.
Qed.

Lemma revoke_step X s evs n form sg s' rest : sp_revocation sp <> "" -> reach X s evs ->
  names sec (pget form "token") sg ->
  pget form "token_type_hint" = "" \/ pget form "token_type_hint" = "access_token" \/ pget form "token_type_hint" = "refresh_token" ->
  ((sv_access s !! sg = None /\ sv_refresh s !! sg = None /\ s' = s) \/
   (exists c, sv_access s !! sg = Some c /\ cd_client_id c = sp_client sp /\ sv_refresh s !! sg = None /\
      s' = set_access s (delete sg (sv_access s))) \/
   (exists c, sv_refresh s !! sg = Some c /\ cd_client_id c = sp_client sp /\ sv_access s !! sg = None /\
      s' = set_refresh s (delete sg (sv_refresh s)))) ->
  (forall evs', reach X s evs' -> safe h n evs' s' rest) ->
  safe h (S n) evs s (Send (post_conf sp (sp_revocation sp) form) (expect_code 200 rest)).
Proof.
  intros Hi Hr Hn Hh Hs' Hk. destruct revoke_written as (w & Hw & Hwc).
  assert (Hl : leads_to resource (sp_revocation sp) "revoke") by (destruct at_revoke; done).
  destruct client_named as [Hc1 Hc2].
  assert (Hne : pget form "token" <> "") by (intros He; rewrite He in Hn; by apply names_empty in Hn).
  destruct (revoke_request_step resource required (sp_client sp) (sp_secret sp) (sp_revocation sp) form Hl Hc1 Hc2 Hne) as (r & Hd & Hm).
  apply (safe_send h n evs s _ _ r Hd). intros ev evs' ->. exists s', w. destruct (Hm ev s) as [Hm1 Hm2]. unfold h.
  split.
  - rewrite Hm1. destruct (conf_lookup s form sg (re_registry _ _ _ _ _ _ Hr) Hn Hh) as (t & Hlo & Hsg). rewrite Hlo in Hm2.
    unfold revocation_endpoint. rewrite Hm2, Hsg. cbv zeta. cbn [lq_client_id lookreq].
    destruct Hs' as [(Ha & Hf & ->)|[(c & Ha & Hcl & Hf & ->)|(c & Hf & Hcl & Ha & ->)]].
    + rewrite Ha, Hf. cbn [respond]. by rewrite Hw.
    + rewrite Ha, Hcl, seqb_same. cbn [negb set_access sv_refresh]. rewrite Hf. unfold revoke_token. rewrite Ha, Hcl, seqb_same.
      cbn [negb respond]. by rewrite Hw.
    + rewrite Ha, Hf, Hcl, seqb_same. cbn [negb]. unfold revoke_token. rewrite Hf, Hcl, seqb_same. cbn [negb respond]. by rewrite Hw.
  - unfold expect_code, check_code. apply safe_check; [rewrite Hwc; reflexivity|]. apply Hk. by apply reach_tail in Hr.
Qed.

(** ** general.go *)
Lemma access_token_test_ok X s evs n tok sg rest : reach X s evs -> live_access s tok sg -> touchable X sg ->
  (forall s' evs', reach X s' evs' -> sv_refresh s' = sv_refresh s -> sv_codes s' = sv_codes s ->
     (forall k, k <> sg -> sv_access s' !! k = sv_access s !! k) -> safe h n evs' s' rest) ->
  safe h (5 + n) evs s (access_token_test sp tok rest).
Proof.
  intros Hr Hl Ht Hk. unfold access_token_test. change (5 + n) with (S (S (S (S (S n))))).
  apply (accepts_step X s evs (4 + n) tok sg); try done. intros evs1 Hr1.
  apply (active_step X s evs1 (3 + n) tok sg); try done; [by left|]. intros evs2 Hr2.
  destruct (seqb (sp_revocation sp) "") eqn:Er.
  { apply (safe_mono h n); [lia|]. by apply Hk. }
  apply seqb_false in Er. pose proof Hl as [Hn (c & Ha & Hf & Hcl & _)].
  destruct (token_form_get tok "access_token") as [G1 G2].
  set (s' := set_access s (delete sg (sv_access s))).
  assert (Hr' : forall evs', reach X s evs' -> reach X s' evs') by (intros evs' Hx; by apply reach_delete_access).
  assert (Ha' : sv_access s' !! sg = None) by apply lookup_delete.
  unfold revokes. apply (revoke_step X s evs2 (2 + n) (token_form tok "access_token") sg s'); try done.
  - rewrite G2. tauto.
  - right. left. exists c. done.
  - intros evs3 Hr3. apply Hr' in Hr3. apply (refuses_step X s' evs3 (1 + n) tok sg); try done. intros evs4 Hr4.
    apply (inactive_step X s' evs4 n tok sg); try done; [by left|]. intros evs5 Hr5. apply Hk; try done.
    intros k Hne. cbn [s' set_access sv_access]. by rewrite lookup_delete_ne.
Qed.

Lemma plain_invalid_grant d : ascii_only d = true -> plain_error (InvalidGrant d).
Proof. intros H. exists d. split; [done|]. do 2 right. by left. Qed.
Lemma plain_invalid_client d : ascii_only d = true -> plain_error (InvalidClient d).
Proof. intros H. exists d. split; [done|]. right. by left. Qed.
Lemma plain_invalid_request d : ascii_only d = true -> plain_error (InvalidRequest d).
Proof. intros H. exists d. split; [done|]. by left. Qed.
Lemma plain_invalid_scope d : ascii_only d = true -> plain_error (InvalidScope d).
Proof. intros H. exists d. split; [done|]. do 3 right. by left. Qed.
Lemma plain_access_denied d : ascii_only d = true -> plain_error (AccessDenied d).
Proof. intros H. exists d. split; [done|]. do 4 right. by left. Qed.
Lemma plain_unsupported d : ascii_only d = true -> plain_error (UnsupportedTokenType d).
Proof. intros H. exists d. split; [done|]. by do 5 right. Qed.
Lemma takes_nothing : takes "" "".
Proof. split; [reflexivity|by left]. Qed.
Lemma refresh_form_get tok : pget (refresh_form tok) "grant_type" = "refresh_token" /\ pget (refresh_form tok) "refresh_token" = tok /\
  pget (refresh_form tok) "redirect_uri" = "" /\ pget (refresh_form tok) "scope" = "".
Proof. repeat split. Qed.

Lemma spent_step X s evs n tok sg rest : reach X s evs -> names sec tok sg -> sv_refresh s !! sg = None ->
  (forall evs', reach X s evs' -> safe h n evs' s rest) ->
  safe h (S n) evs s (refresh_spent sp tok rest).
Proof.
  intros Hr Hn Hf Hk. destruct client_named as [Hc1 Hc2]. destruct (refresh_form_get tok) as (G1 & G2 & G3 & G4).
  apply (token_error X s evs n (sp_client sp) (sp_secret sp) (refresh_form tok) "" (InvalidGrant "unknown refresh token")); try done; try exact takes_nothing.
  - by apply plain_invalid_grant.
  - intros ev _. rewrite conf_dispatch by first [exact (re_registry _ _ _ _ _ _ Hr)|reflexivity]. cbv zeta. rewrite G1.
    change (seqb "refresh_token" PasswordGrantType) with false. change (seqb "refresh_token" ClientCredentialsGrantType) with false.
    change (seqb "refresh_token" AuthorizationCodeGrantType) with false. cbv iota.
    unfold handle_refresh. cbn [tq_refresh_token tokreq]. rewrite G2.
    destruct (parsed s tok sg (re_registry _ _ _ _ _ _ Hr) Hn) as (t & Hp & Hsg). rewrite Hp. cbv zeta. by rewrite Hsg, Hf.
Qed.

(** The refreshed server. *)
Lemma refresh_grant_step X s evs n tok sg k : reach X s evs -> live_refresh s tok sg -> touchable X sg ->
  (forall s' evs' access new a f, reach X s' evs' -> live_access s' access a -> live_refresh s' new f ->
     touchable X a -> touchable X f -> a <> f -> a <> sg -> f <> sg ->
     sv_refresh s' !! sg = None -> sv_access s' !! sg = None -> safe h n evs' s' (k access new)) ->
  safe h (S n) evs s (Send (post_conf sp (sp_token sp) (refresh_form tok)) (expect_tokens sp k)).
Proof.
  intros Hr [Hn (c & Hf & Ha & Hcl & Hex & Hsc & Hrd)] Ht Hk. destruct client_named as [Hc1 Hc2].
  destruct (refresh_form_get tok) as (G1 & G2 & G3 & G4).
  apply (token_success X s evs n (sp_client sp) (sp_secret sp) (refresh_form tok) ""); try done; try exact takes_nothing.
  intros ev evs' Hr'. clear Hr. pose proof (re_registry _ _ _ _ _ _ Hr') as Hreg.
  destruct (r_issue X s ev evs' (cd_scope c) (sp_client sp) (cd_username c) "" Hr')
    as (s1 & t & a & f & Hi & Hb & Hr1 & Fa1 & Fa2 & Ff1 & Ff2 & _).
  pose proof Hb as (B1 & B2 & B3 & B4 & B5 & B6 & B7 & B8 & Bne & Bin1 & Bin2 & B9 & B10 & B11 & B12).
  assert (Nf : f <> sg) by (intros ->; congruence). assert (Na : a <> sg) by (intros ->; congruence).
  exists (set_refresh s1 (delete sg (sv_refresh s1))), t. split; [|split].
  - rewrite conf_dispatch by done. cbv zeta. rewrite G1.
    change (seqb "refresh_token" PasswordGrantType) with false. change (seqb "refresh_token" ClientCredentialsGrantType) with false.
    change (seqb "refresh_token" AuthorizationCodeGrantType) with false. cbv iota.
    unfold handle_refresh. cbn [tq_refresh_token tq_client_id tq_scope tokreq]. rewrite G2, G4.
    destruct (parsed s tok sg Hreg Hn) as (tk & Hp & Hsg). rewrite Hp. cbv zeta. rewrite Hsg, Hf.
    pose proof (r_now X s ev evs' Hr') as ((_ & T1) & _).
    replace (cd_expires_at c <? ev_now_check ev)%Z with false by lia. rewrite Hcl, seqb_same. cbn [negb].
    change (scope_empty (parse_scope "")) with true. cbv iota.
    assert (scope_includes (cd_scope c) (cd_scope c) = true) as -> by (apply covers_spec; intros x Hx; exact Hx).
    cbn [negb]. rewrite Hi. reflexivity.
  - by rewrite B3.
  - do 8 (split; [assumption|]).
    destruct (issued_live sp s0 t0 t1 evs0 required l times random X s s1 t ev evs' (cd_scope c) (cd_username c) "" a f Hr' Hb Fa2 Ff1
      (proj1 Hrd) scope_utf8 Hsc required_granted) as [[L1 (c1 & L2 & L3 & L4)] [L5 (c2 & L6 & L7 & L8)]].
    apply (Hk _ evs' _ _ a f); try done; try (by apply r_drawn).
    + by apply reach_delete_refresh.
    + split; [exact L1|]. exists c1. cbn [sv_access sv_refresh set_refresh]. rewrite lookup_delete_ne by done. done.
    + split; [exact L5|]. exists c2. cbn [sv_access sv_refresh set_refresh]. rewrite lookup_delete_ne by done. done.
    + apply lookup_delete.
    + cbn [sv_access set_refresh]. rewrite B8. cbn [sv_access]. by rewrite lookup_insert_ne.
Qed.

Lemma refresh_token_test_ok X s evs n tok sg rest : reach X s evs -> live_refresh s tok sg -> touchable X sg ->
  (forall s' evs', reach X s' evs' -> safe h n evs' s' rest) ->
  safe h (12 + n) evs s (refresh_token_test sp tok rest).
Proof.
  intros Hr Hl Ht Hk. unfold refresh_token_test. pose proof Hl as [Hn _].
  apply (active_step X s evs (11 + n) tok sg); try done; [by right|]. intros evs1 Hr1.
  apply (refresh_grant_step X s evs1 (10 + n) tok sg); try done.
  intros s2 evs2 access new a f Hr2 La Lf Ta Tf Naf Nas Nfs Hf2 Ha2.
  apply (access_token_test_ok X s2 evs2 (5 + n) access a); try done. intros s3 evs3 Hr3 E1 E2 E3.
  apply (spent_step X s3 evs3 (4 + n) tok sg); try done; [by rewrite E1|]. intros evs4 Hr4.
  apply (inactive_step X s3 evs4 (3 + n) tok sg); try done; [by right|by rewrite E3|by rewrite E1|]. intros evs5 Hr5.
  destruct (seqb (sp_revocation sp) "") eqn:Er.
  { apply (safe_mono h n); [lia|]. by apply Hk. }
  apply seqb_false in Er. destruct Lf as [Hnf (c & Hf & Haf & Hcl & _)].
  set (s4 := set_refresh s3 (delete f (sv_refresh s3))).
  assert (Hr' : forall evs', reach X s3 evs' -> reach X s4 evs') by (intros evs' Hx; by apply reach_delete_refresh).
  assert (Hf4 : sv_refresh s4 !! f = None) by apply lookup_delete.
  assert (Ha4 : sv_access s4 !! f = None) by (cbn [s4 set_refresh sv_access]; by rewrite E3).
  unfold revokes. apply (revoke_step X s3 evs5 (2 + n) (token_form new "refresh_token") f s4); try done.
  - right. by right.
  - right. right. exists c. split; [by rewrite E1|]. split; [done|]. split; [by rewrite E3|]. reflexivity.
  - intros evs6 Hr6. apply Hr' in Hr6. apply (spent_step X s4 evs6 (1 + n) new f); try done. intros evs7 Hr7.
    apply (inactive_step X s4 evs7 n new f); try done; [by right|]. intros evs8 Hr8. by apply Hk.
Qed.

Lemma test_tokens_ok X s evs n access refresh a f rest : reach X s evs -> live_access s access a -> live_refresh s refresh f ->
  a <> f -> touchable X a -> touchable X f ->
  (forall s' evs', reach X s' evs' -> safe h n evs' s' rest) ->
  safe h (17 + n) evs s (test_tokens sp rest access refresh).
Proof.
  intros Hr La Lf Hne Ta Tf Hk. unfold test_tokens.
  apply (access_token_test_ok X s evs (12 + n) access a); try done. intros s1 evs1 Hr1 E1 E2 E3.
  destruct (seqb refresh "") eqn:E.
  { apply (safe_mono h n); [lia|]. by apply Hk. }
  apply (refresh_token_test_ok X s1 evs1 n refresh f); try done.
  destruct Lf as [L1 (c & L2 & L3 & L4)]. split; [exact L1|]. exists c. rewrite E1, E3 by done. done.
Qed.

(** ** grants.go *)
Lemma password_form_get u p sc : pget (password_form u p sc) "grant_type" = "password" /\ pget (password_form u p sc) "username" = u /\
  pget (password_form u p sc) "password" = p /\ pget (password_form u p sc) "scope" = sc /\ pget (password_form u p sc) "redirect_uri" = "".
Proof. repeat split. Qed.
Lemma client_form_get sc : pget (client_form sc) "grant_type" = "client_credentials" /\
  pget (client_form sc) "scope" = sc /\ pget (client_form sc) "redirect_uri" = "".
Proof. repeat split. Qed.
Lemma owner_spec s u p : same_registry s0 s -> owner_ok s u p = true <-> password_of s0 u p.
Proof. intros (_ & _ & Hu). rewrite (password_spec s0). unfold owner_ok. by rewrite Hu. Qed.

(** Both kinds of grant. *)
Lemma issue_step X s evs n form ru sc user code (upd : server -> server) k :
  reach X s evs -> pget form "grant_type" <> "" -> takes (pget form "redirect_uri") ru ->
  valid_utf8 user -> items sc = l ->
  (forall ev s1 t, in_time s0 t0 t1 ev -> issue_tokens ev s true sc (sp_client sp) user code = Some (s1, t) ->
     token_outcome ev s (tokreq (sp_client sp) (sp_secret sp) form ru) = Done (upd s1) (OToken t)) ->
  (forall s1, sv_access (upd s1) = sv_access s1 /\ sv_refresh (upd s1) = sv_refresh s1) ->
  (forall s1 evs' ev a f t, reach X s1 evs' -> both_issued s0 evs0 s s1 t ev sc (sp_client sp) user code a f ->
     sv_codes s !! a = None -> sv_codes s !! f = None ->
     live_access (upd s1) (tr_access_token t) a -> live_refresh (upd s1) (tr_refresh_token t) f ->
     a <> f -> touchable X a -> touchable X f ->
     safe h n evs' (upd s1) (k (tr_access_token t) (tr_refresh_token t))) ->
  safe h (S n) evs s (Send (post_conf sp (sp_token sp) form) (expect_tokens sp k)).
Proof.
  intros Hr Hg Hu Hv Hsc Ho Hupd Hk. destruct client_named as [Hc1 Hc2].
  apply (token_success X s evs n (sp_client sp) (sp_secret sp) form ru); try done; try exact takes_nothing.
  intros ev evs' Hr'. destruct (r_issue X s ev evs' sc (sp_client sp) user code Hr')
    as (s1 & t & a & f & Hi & Hb & Hr1 & Fa1 & Fa2 & Ff1 & Ff2 & Fc1 & Fc2).
  pose proof Hb as (B1 & B2 & B3 & B4 & B5 & B6 & B7 & B8 & Bne & Bin1 & Bin2 & B9 & B10 & B11 & B12).
  exists (upd s1), t. split; [by apply Ho; [apply (r_time X s ev evs')|]|]. split; [by rewrite B3|].
  do 8 (split; [assumption|]).
  destruct (issued_live sp s0 t0 t1 evs0 required l times random X s s1 t ev evs' sc user code a f Hr' Hb Fa2 Ff1
      Hv scope_utf8 Hsc required_granted) as [[L1 L2] [L5 L6]].
  destruct (Hupd s1) as [U1 U2].
  apply (Hk s1 evs' ev a f t); try done; try (by apply r_drawn); (split; [done|]); by rewrite U1, U2.
Qed.

Lemma password_grant_test_ok X s evs n rest : sp_password_grant sp = true -> reach X s evs ->
  (forall s' evs', reach X s' evs' -> safe h n evs' s' rest) ->
  safe h (23 + n) evs s (password_grant_test sp rest).
Proof.
  intros Hpg Hr Hk. destruct users as [Hus _]. destruct (Hus Hpg) as (U1 & U2 & U3 & U4).
  destruct client_named as [Hc1 Hc2]. unfold password_grant_test. cbv zeta.
  pose proof (re_registry _ _ _ _ _ _ Hr) as Hreg.
  assert (Hdisp : forall ev u p sc, token_outcome ev s (tokreq (sp_client sp) (sp_secret sp) (password_form u p sc) "") =
    handle_password ev s (tokreq (sp_client sp) (sp_secret sp) (password_form u p sc) "")).
  { intros ev u p sc. destruct (password_form_get u p sc) as (G1 & _). rewrite conf_dispatch by done. by rewrite G1. }
  apply (token_error X s evs (22 + n) (sp_client sp) "invalid" _ "" (InvalidClient "unknown client")); try done; try exact takes_nothing.
  { by apply plain_invalid_client. } { intros ev _. by apply wrong_secret. }
  intros evs1 Hr1. apply (token_error X s evs1 (21 + n) (sp_client sp) (sp_secret sp) _ "" (AccessDenied "")); try done; try exact takes_nothing.
  { by apply plain_access_denied. }
  { intros ev _. rewrite Hdisp. unfold handle_password. cbn [tq_username tq_password tokreq].
    destruct (password_form_get "invalid" (sp_owner_password sp) (sp_valid_scope sp)) as (_ & -> & -> & _).
    assert (owner_ok s "invalid" (sp_owner_password sp) = false) as -> by (apply not_true_is_false; by rewrite owner_spec). done. }
  intros evs2 Hr2. apply (token_error X s evs2 (20 + n) (sp_client sp) (sp_secret sp) _ "" (AccessDenied "")); try done; try exact takes_nothing.
  { by apply plain_access_denied. }
  { intros ev _. rewrite Hdisp. unfold handle_password. cbn [tq_username tq_password tokreq].
    destruct (password_form_get (sp_owner sp) "invalid" (sp_valid_scope sp)) as (_ & -> & -> & _).
    assert (owner_ok s (sp_owner sp) "invalid" = false) as -> by (apply not_true_is_false; by rewrite owner_spec). done. }
  assert (Hok : owner_ok s (sp_owner sp) (sp_owner_password sp) = true) by (by apply owner_spec).
  assert (Hbad : forall x ev, x = sp_invalid_scope sp \/ x = sp_exceeding_scope sp ->
    token_outcome ev s (tokreq (sp_client sp) (sp_secret sp) (password_form (sp_owner sp) (sp_owner_password sp) x) "") = Done s (OError (InvalidScope ""))).
  { intros x ev Hx. rewrite Hdisp. unfold handle_password. cbn [tq_username tq_password tq_scope tokreq].
    destruct (password_form_get (sp_owner sp) (sp_owner_password sp) x) as (_ & -> & -> & -> & _). rewrite Hok. cbn [negb].
    by rewrite bad_scope. }
  intros evs3 Hr3. apply (token_error X s evs3 (19 + n) (sp_client sp) (sp_secret sp) _ "" (InvalidScope "")); try done; try exact takes_nothing.
  { by apply plain_invalid_scope. } { intros ev _. apply Hbad. by left. }
  intros evs4 Hr4. apply (token_error X s evs4 (18 + n) (sp_client sp) (sp_secret sp) _ "" (InvalidScope "")); try done; try exact takes_nothing.
  { by apply plain_invalid_scope. } { intros ev _. apply Hbad. by right. }
  intros evs5 Hr5.
  apply (issue_step X s evs5 (17 + n) _ "" (parse_scope (sp_valid_scope sp)) (sp_owner sp) "" (fun x => x)); try done; try exact takes_nothing.
  - apply valid_scope_items.
  - intros ev s1 t _ Hi. rewrite Hdisp. unfold handle_password. cbn [tq_username tq_password tq_scope tq_client_id tokreq].
    destruct (password_form_get (sp_owner sp) (sp_owner_password sp) (sp_valid_scope sp)) as (_ & -> & -> & -> & _).
    rewrite Hok. cbn [negb]. rewrite valid_scope_allowed by done. cbn [negb]. by rewrite Hi.
  - intros s1 evs6 ev a f t Hr6 _ _ _ La Lf Hne Ta Tf. by apply (test_tokens_ok X s1 evs6 n _ _ a f).
Qed.

Lemma client_credentials_grant_test_ok X s evs n rest : reach X s evs ->
  (forall s' evs', reach X s' evs' -> safe h n evs' s' rest) ->
  safe h (22 + n) evs s (client_credentials_grant_test sp rest).
Proof.
  intros Hr Hk. destruct client_named as [Hc1 Hc2]. destruct public_named as [Hp1 Hp2]. unfold client_credentials_grant_test.
  pose proof (re_registry _ _ _ _ _ _ Hr) as Hreg.
  assert (Hdisp : forall ev sc, token_outcome ev s (tokreq (sp_client sp) (sp_secret sp) (client_form sc) "") =
    handle_client_credentials ev s (tokreq (sp_client sp) (sp_secret sp) (client_form sc) "")).
  { intros ev sc. destruct (client_form_get sc) as (G1 & _). rewrite conf_dispatch by done. by rewrite G1. }
  apply (token_refused X s evs (21 + n) (sp_client sp) "invalid" _ "" "unknown client"); try done; try exact takes_nothing.
  { intros ev _. by apply wrong_secret. }
  intros evs1 Hr1. apply (token_refused X s evs1 (20 + n) (sp_public sp) "" _ "" "unknown client"); try done; try exact takes_nothing.
  { intros ev _. destruct (client_form_get (sp_valid_scope sp)) as (G1 & _). rewrite public_dispatch by done. cbv zeta. rewrite G1.
    change (seqb "client_credentials" PasswordGrantType) with false. change (seqb "client_credentials" ClientCredentialsGrantType) with true.
    cbv iota. unfold handle_client_credentials. cbn [tq_client_id tokreq].
    destruct (public_client s "" Hreg) as (c & -> & _ & ->). done. }
  destruct (conf_client s Hreg) as (c & Hcc & _ & _ & _ & Hconf & _).
  assert (Hbad : forall x ev, x = sp_invalid_scope sp \/ x = sp_exceeding_scope sp ->
    token_outcome ev s (tokreq (sp_client sp) (sp_secret sp) (client_form x) "") = Done s (OError (InvalidScope ""))).
  { intros x ev Hx. rewrite Hdisp. unfold handle_client_credentials. cbn [tq_client_id tq_scope tokreq]. rewrite Hcc, Hconf. cbn [negb].
    destruct (client_form_get x) as (_ & -> & _). by rewrite bad_scope. }
  intros evs3 Hr3. apply (token_error X s evs3 (19 + n) (sp_client sp) (sp_secret sp) _ "" (InvalidScope "")); try done; try exact takes_nothing.
  { by apply plain_invalid_scope. } { intros ev _. apply Hbad. by left. }
  intros evs4 Hr4. apply (token_error X s evs4 (18 + n) (sp_client sp) (sp_secret sp) _ "" (InvalidScope "")); try done; try exact takes_nothing.
  { by apply plain_invalid_scope. } { intros ev _. apply Hbad. by right. }
  intros evs5 Hr5.
  apply (issue_step X s evs5 (17 + n) _ "" (parse_scope (sp_valid_scope sp)) "" "" (fun x => x)); try done; try exact takes_nothing.
  - by apply ascii_utf8.
  - apply valid_scope_items.
  - intros ev s1 t _ Hi. rewrite Hdisp. unfold handle_client_credentials. cbn [tq_client_id tq_scope tokreq]. rewrite Hcc, Hconf. cbn [negb].
    destruct (client_form_get (sp_valid_scope sp)) as (_ & -> & _).
    rewrite valid_scope_allowed by done. cbn [negb]. by rewrite Hi.
  - intros s1 evs6 ev a f t Hr6 _ _ _ La Lf Hne Ta Tf. by apply (test_tokens_ok X s1 evs6 n _ _ a f).
Qed.

(** ** endpoints.go *)
Lemma plain_auth_empty : header_of (map_to_list (∅ : gmap string string)) "Authorization" = "".
Proof. reflexivity. Qed.

(** A request without credentials to an endpoint. *)
Lemma plain_error_step X s evs n m path name form e status ename rest :
  leads_to resource path name -> contains "/" name = false -> valid_method m = true -> m <> "" ->
  plain_error e -> e_status e = status -> e_name e = ename ->
  (forall ev p ct, last_segment p = name -> handle ev s (treq m p "" ct form) = Done s (OError e)) ->
  reach X s evs -> (forall evs', reach X s evs' -> safe h n evs' s rest) ->
  safe h (S n) evs s (Send {| sr_method := m; sr_path := path; sr_header := ∅; sr_form := form; sr_username := ""; sr_password := "" |}
    (expect_error status ename rest)).
Proof.
  intros Hl Hn Hv Hm He Hs Hen Ho Hr Hk.
  destruct (post_plain_request resource required m path name ∅ form Hl Hn Hv Hm) as (p & auth & ct & Hd & Hp & Ha & Hh).
  rewrite plain_auth_empty in Ha. subst auth.
  apply (error_step X s evs n _ _ e status ename rest Hd); try done. intros ev _. unfold h. rewrite Hh. by rewrite Ho.
Qed.
Lemma plain_refused_step X s evs n m path name form d rest :
  leads_to resource path name -> contains "/" name = false -> valid_method m = true -> m <> "" -> ascii_only d = true ->
  (forall ev p ct, last_segment p = name -> handle ev s (treq m p "" ct form) = Done s (OError (InvalidClient d))) ->
  reach X s evs -> (forall evs', reach X s evs' -> safe h n evs' s rest) ->
  safe h (S n) evs s (Send {| sr_method := m; sr_path := path; sr_header := ∅; sr_form := form; sr_username := ""; sr_password := "" |}
    (expect_refused rest)).
Proof.
  intros Hl Hn Hv Hm He Ho Hr Hk.
  destruct (post_plain_request resource required m path name ∅ form Hl Hn Hv Hm) as (p & auth & ct & Hd & Hp & Ha & Hh).
  rewrite plain_auth_empty in Ha. subst auth.
  apply (refused_step X s evs n _ _ d rest Hd); try done. intros ev _. unfold h. rewrite Hh. by rewrite Ho.
Qed.
(** One with credentials. *)
Lemma named_error_step X s evs n id secret path name form e status ename rest :
  leads_to resource path name -> contains "/" name = false -> id <> "" ->
  plain_error e -> e_status e = status -> e_name e = ename ->
  (forall ev p ct, last_segment p = name -> handle ev s (treq "POST" p (basic_auth_header id secret) ct form) = Done s (OError e)) ->
  reach X s evs -> (forall evs', reach X s evs' -> safe h n evs' s rest) ->
  safe h (S n) evs s (Send (post_as id secret path form) (expect_error status ename rest)).
Proof.
  intros Hl Hn Hid He Hs Hen Ho Hr Hk.
  destruct (post_conf_request resource required path name id secret form Hl Hn Hid) as (p & ct & Hd & Hp & Hh).
  apply (error_step X s evs n _ _ e status ename rest Hd); try done. intros ev _. unfold h. rewrite Hh. by rewrite Ho.
Qed.
Lemma named_refused_step X s evs n id secret path name form d rest :
  leads_to resource path name -> contains "/" name = false -> id <> "" -> ascii_only d = true ->
  (forall ev p ct, last_segment p = name -> handle ev s (treq "POST" p (basic_auth_header id secret) ct form) = Done s (OError (InvalidClient d))) ->
  reach X s evs -> (forall evs', reach X s evs' -> safe h n evs' s rest) ->
  safe h (S n) evs s (Send (post_as id secret path form) (expect_refused rest)).
Proof.
  intros Hl Hn Hid He Ho Hr Hk.
  destruct (post_conf_request resource required path name id secret form Hl Hn Hid) as (p & ct & Hd & Hp & Hh).
  apply (refused_step X s evs n _ _ d rest Hd); try done. intros ev _. unfold h. rewrite Hh. by rewrite Ho.
Qed.

Lemma token_no_form p auth ct : parse_token_request (treq "POST" p auth ct ∅) = inr (InvalidRequest "missing grant type").
Proof. unfold parse_token_request. rewrite treq_form. cbn [rq_method treq f_post]. change (seqb "POST" "POST") with true. cbn [negb]. cbv zeta. rewrite !vget_singles. reflexivity. Qed.

Lemma token_endpoint_test_ok X s evs n rest : reach X s evs ->
  (forall evs', reach X s evs' -> safe h n evs' s rest) ->
  safe h (3 + n) evs s (token_endpoint_test sp rest).
Proof.
  intros Hr Hk. destruct client_named as [Hc1 Hc2]. pose proof (re_registry _ _ _ _ _ _ Hr) as Hreg. unfold token_endpoint_test.
  apply (plain_error_step X s evs (2 + n) "POST" (sp_token sp) "token" ∅ (InvalidRequest "missing grant type")); try done.
  { by apply plain_invalid_request. }
  { intros ev p ct Hp. rewrite handle_token by (by apply endpoint_token). unfold token_endpoint. by rewrite token_no_form. }
  intros evs1 Hr1.
  apply (token_error X s evs1 (1 + n) "unknown" "" _ "" (InvalidClient "unknown client")); try done; try exact takes_nothing.
  { by apply without_contains. } { by apply plain_invalid_client. }
  { intros ev _. destruct (no_client s Hreg) as [Hu _]. with_strategy transparent [token_outcome] unfold token_outcome.
    cbn [tq_grant_type tq_client_id tokreq].
    change (pget {[ "grant_type" := "password" ]} "grant_type") with "password". change (known_grant_type "password") with true.
    cbn [negb]. by rewrite Hu. }
  intros evs2 Hr2.
  apply (token_error X s evs2 n (sp_client sp) (sp_secret sp) _ "" (InvalidRequest "unknown grant type")); try done; try exact takes_nothing.
  by apply plain_invalid_request.
Qed.

(** The endpoints that look a token up. *)
Definition lookup_name (path name : string) : Prop :=
  (path = sp_introspection sp /\ name = "introspect" \/ path = sp_revocation sp /\ name = "revoke") /\ path <> "".
Lemma lookup_leads path name : lookup_name path name -> leads_to resource path name /\ contains "/" name = false.
Proof.
  intros [[[-> ->]|[-> ->]] Hne].
  - destruct at_introspect; done.
  - destruct at_revoke; done.
Qed.
Lemma lookup_handle path name ev s m p auth ct form e : lookup_name path name -> last_segment p = name ->
  lookup_prologue s (treq m p auth ct form) = inr e -> handle ev s (treq m p auth ct form) = Done s (OError e).
Proof.
  intros [[[_ ->]|[_ ->]] _] Hp Hl.
  - rewrite handle_introspect by (by apply endpoint_introspect). unfold introspection_endpoint. by rewrite Hl.
  - rewrite handle_revoke by (by apply endpoint_revoke). unfold revocation_endpoint. by rewrite Hl.
Qed.
Lemma lookup_no_form s p auth ct : lookup_prologue s (treq "POST" p auth ct ∅) = inr (InvalidRequest "missing token").
Proof.
  unfold lookup_prologue, parse_lookup_request. rewrite treq_form.
  change (rq_method (treq "POST" p auth ct ∅)) with "POST". change (seqb "POST" "POST") with true. cbn [negb f_post]. cbv zeta.
  rewrite !vget_singles. reflexivity.
Qed.
Lemma lookup_no_auth s p ct form : pget form "token" <> "" ->
  lookup_prologue s (treq "POST" p "" ct form) = inr (InvalidRequest "missing or invalid HTTP authorization header").
Proof.
  intros Hne. unfold lookup_prologue, parse_lookup_request. rewrite treq_form.
  change (rq_method (treq "POST" p "" ct form)) with "POST". change (seqb "POST" "POST") with true. cbn [negb f_post]. cbv zeta.
  rewrite !vget_singles. fold (pget form "token"). rewrite (ne_seqb _ "" Hne). by rewrite treq_nobasic.
Qed.
Lemma lookup_get s p auth ct form : lookup_prologue s (treq "GET" p auth ct form) = inr (InvalidRequest "invalid HTTP method").
Proof. reflexivity. Qed.

Lemma wrong_client path name ev s p id secret ct form t c : lookup_name path name -> last_segment p = name ->
  without ":" id -> pget form "token" <> "" -> lookup_outcome s form id secret = inl t ->
  sv_access s !! signature_string t = Some c -> cd_client_id c <> id ->
  handle ev s (treq "POST" p (basic_auth_header id secret) ct form) = Done s (OError (InvalidClient "wrong client")).
Proof.
  intros [[[_ ->]|[_ ->]] _] Hp Hw Ht Hl Ha Hc.
  - rewrite handle_introspect by (by apply endpoint_introspect). unfold introspection_endpoint.
    rewrite lookup_parse by done. rewrite Hl, Ha. cbv zeta. cbn [lq_client_id lookreq]. by rewrite (ne_seqb _ _ Hc).
  - rewrite handle_revoke by (by apply endpoint_revoke). unfold revocation_endpoint.
    rewrite lookup_parse by done. rewrite Hl, Ha. cbv zeta. cbn [lq_client_id lookreq]. by rewrite (ne_seqb _ _ Hc).
Qed.

(** Keys that were given up belong to refresh tokens. *)
Definition only_refresh (X : list string) : Prop := forall k, In k X -> is_Some (sv_refresh s0 !! k).
Lemma still_valid X s evs : reach X s evs -> only_refresh X ->
  exists sg, live_access s (sp_valid_token sp) sg.
Proof.
  intros Hr HX. destruct tokens as (_ & _ & (sg & c & H1 & H2 & H3 & H4 & H5 & H6 & H7 & H8) & _).
  assert (Hn : ~ In sg X) by (intros Hin; destruct (HX sg Hin); congruence).
  exists sg. split; [exact H1|]. exists c.
  rewrite (re_access _ _ _ _ _ _ Hr), (re_refresh _ _ _ _ _ _ Hr); try done; right; by left.
Qed.
Lemma still_unknown X s evs : reach X s evs -> only_refresh X ->
  exists sg, names sec (sp_unknown_token sp) sg /\ sv_access s !! sg = None /\ sv_refresh s !! sg = None.
Proof.
  intros Hr HX. destruct tokens as (_ & (sg & H1 & H2) & _). inversion H2 as [|? ? Ha H2']; subst. inversion H2' as [|? ? Hf _]; subst.
  assert (Hn : ~ In sg X) by (intros Hin; destruct (HX sg Hin); congruence).
  exists sg. split; [exact H1|].
  rewrite (re_access _ _ _ _ _ _ Hr), (re_refresh _ _ _ _ _ _ Hr); try done; by left.
Qed.

Lemma lookup_refusals_ok X s evs n path name rest : lookup_name path name -> reach X s evs -> only_refresh X ->
  (forall evs', reach X s evs' -> safe h n evs' s rest) ->
  safe h (9 + n) evs s (lookup_refusals sp path rest).
Proof.
  intros Hname Hr HX Hk. destruct (lookup_leads path name Hname) as [Hl Hc].
  destruct client_named as [Hc1 Hc2]. destruct public_named as [Hp1 Hp2].
  pose proof (re_registry _ _ _ _ _ _ Hr) as Hreg.
  assert (Hne : sp_valid_token sp <> "" /\ sp_invalid_token sp <> "") by (destruct complete as [H _]; rewrite !Forall_cons in H; tauto).
  destruct Hne as [Hv Hiv]. unfold lookup_refusals.
  destruct (plain_form_get (sp_valid_token sp)) as [G1 G2].
  apply (plain_error_step X s evs (8 + n) "POST" path name ∅ (InvalidRequest "missing token")); try done.
  { by apply plain_invalid_request. }
  { intros ev p ct Hp. apply (lookup_handle path name); [done|done|]. apply lookup_no_form. }
  intros evs1 Hr1.
  apply (plain_error_step X s evs1 (7 + n) "POST" path name _ (InvalidRequest "missing or invalid HTTP authorization header")); try done.
  { by apply plain_invalid_request. }
  { intros ev p ct Hp. apply (lookup_handle path name); [done|done|]. by apply lookup_no_auth. }
  intros evs2 Hr2.
  apply (named_error_step X s evs2 (6 + n) (sp_client sp) (sp_secret sp) path name ∅ (InvalidRequest "missing token")); try done.
  { by apply plain_invalid_request. }
  { intros ev p ct Hp. apply (lookup_handle path name); [done|done|]. apply lookup_no_form. }
  intros evs3 Hr3.
  apply (named_error_step X s evs3 (5 + n) (sp_client sp) (sp_secret sp) path name _ (UnsupportedTokenType "")); try done.
  { by apply plain_unsupported. }
  { intros ev p ct Hp. apply (lookup_handle path name); [done|done|]. rewrite lookup_parse by done. reflexivity. }
  intros evs4 Hr4. destruct (no_client s Hreg) as [Hu _].
  apply (named_refused_step X s evs4 (4 + n) "unknown" "" path name _ "unknown client"); try done.
  { intros ev p ct Hp. apply (lookup_handle path name); [done|done|]. rewrite lookup_parse; [|by apply without_contains|by rewrite G1].
    unfold lookup_outcome. cbv zeta. rewrite G2. change (negb (seqb "" "")) with false. cbn [andb]. by rewrite Hu. }
  intros evs5 Hr5. destruct (conf_client s Hreg) as (cc & Hcc & Hok & _ & Hbad & _).
  apply (named_refused_step X s evs5 (3 + n) (sp_client sp) "" path name _ "unknown client"); try done.
  { intros ev p ct Hp. apply (lookup_handle path name); [done|done|]. rewrite lookup_parse; [|done|by rewrite G1].
    unfold lookup_outcome. cbv zeta. rewrite G2. change (negb (seqb "" "")) with false. cbn [andb]. by rewrite Hcc, Hbad. }
  intros evs6 Hr6.
  apply (named_error_step X s evs6 (2 + n) (sp_public sp) "" path name _ (InvalidClient "wrong client")); try done.
  { by apply plain_invalid_client. }
  { intros ev p ct Hp. destruct (still_valid X s evs Hr HX) as (sg & Hn & (c & Ha & _ & Hcl & _)).
    destruct (parsed s _ sg Hreg Hn) as (t & Hpt & Hsg). destruct (public_client s "" Hreg) as (pc & Hpc & Hpok & _).
    apply (wrong_client path name ev s p _ _ ct _ t c); try done.
    - unfold lookup_outcome. cbv zeta. rewrite G2. change (negb (seqb "" "")) with false. cbn [andb]. rewrite Hpc, Hpok. cbn [negb].
      rewrite G1. by rewrite Hpt.
    - by rewrite Hsg.
    - rewrite Hcl. apply other_client. }
  intros evs7 Hr7. destruct (unparsed s (sp_invalid_token sp) Hreg (proj1 tokens)) as (msg & Hmsg & Hasc).
  apply (named_error_step X s evs7 (1 + n) (sp_client sp) (sp_secret sp) path name _ (InvalidRequest msg)); try done.
  { by apply plain_invalid_request. }
  { intros ev p ct Hp. apply (lookup_handle path name); [done|done|].
    destruct (plain_form_get (sp_invalid_token sp)) as [G3 G4]. rewrite lookup_parse; [|done|by rewrite G3].
    unfold lookup_outcome. cbv zeta. rewrite G4. change (negb (seqb "" "")) with false. cbn [andb]. rewrite Hcc, Hok. cbn [negb].
    rewrite G3. by rewrite Hmsg. }
  intros evs8 Hr8. destruct (still_unknown X s evs Hr HX) as (sg & Hn & Ha & Hf).
  destruct Hname as [[[-> _]|[-> _]] Hpne].
  - destruct intro_answer_inactive as (w & Hw & Hw1 & Hw2).
    apply (introspect_step X s evs8 n (plain_token_form (sp_unknown_token sp)) sg w); try done; [by left| |].
    + eexists. split; [exact Hw|]. left. done.
    + intros evs9 Hr9. unfold expect_code, check_code. apply safe_check; [rewrite Hw1; reflexivity|]. by apply Hk.
  - apply (revoke_step X s evs8 n (plain_token_form (sp_unknown_token sp)) sg s); try done; [by left|by left].
Qed.

Lemma introspection_endpoint_test_ok X s evs n rest : sp_introspection sp <> "" -> reach X s evs -> only_refresh X ->
  (forall evs', reach X s evs' -> safe h n evs' s rest) ->
  safe h (11 + n) evs s (introspection_endpoint_test sp rest).
Proof.
  intros Hi Hr HX Hk. unfold introspection_endpoint_test.
  assert (Hname : lookup_name (sp_introspection sp) "introspect") by (split; [by left|done]).
  destruct (lookup_leads _ _ Hname) as [Hl Hc].
  apply (plain_error_step X s evs (10 + n) "GET" (sp_introspection sp) "introspect" ∅ (InvalidRequest "invalid HTTP method")); try done.
  { by apply plain_invalid_request. }
  { intros ev p ct Hp. apply (lookup_handle _ _ ev s "GET" p "" ct ∅ _ Hname Hp). apply lookup_get. }
  intros evs1 Hr1. apply (lookup_refusals_ok X s evs1 (1 + n) _ "introspect"); try done. intros evs2 Hr2.
  destruct (still_valid X s evs Hr HX) as (sg & Hn & (c & Ha & Hf & Hcl & _ & _ & Hrd)).
  destruct (token_form_get (sp_valid_token sp) "access_token") as [G1 G2].
  assert (Hid : valid_utf8 (cd_client_id c)) by (rewrite Hcl; by destruct clients as (_ & _ & _ & ? & _)).
  destruct (intro_answer_active c "access_token" Hrd Hid ltac:(by left)) as (w & Hw & Hw1 & Hw2 & Hw3).
  apply (introspect_step X s evs2 n (token_form (sp_valid_token sp) "access_token") sg w); try done.
  - right. by left.
  - exists (describe c "access_token"). split; [done|]. right. left. exists c. done.
  - intros evs' Hr'. unfold check_code. apply safe_check; [rewrite Hw1; reflexivity|].
    apply safe_check; [rewrite Hw2; reflexivity|]. by apply Hk.
Qed.

Lemma revocation_endpoint_test_ok X s evs n rest : sp_revocation sp <> "" -> reach X s evs -> only_refresh X ->
  (forall s' evs', safe h n evs' s' rest) ->
  safe h (14 + n) evs s (revocation_endpoint_test sp rest).
Proof.
  intros Hi Hr HX Hk. unfold revocation_endpoint_test.
  assert (Hname : lookup_name (sp_revocation sp) "revoke") by (split; [by right|done]).
  apply (lookup_refusals_ok X s evs (5 + n) _ "revoke"); try done. intros evs2 Hr2.
  destruct (still_valid X s evs Hr HX) as (sg & Hlive).
  apply (access_token_test_ok (sg :: X) s evs2 n _ sg); try done.
  - apply (reach_weaken sp s0 evs0 X); [by apply incl_tl, incl_refl|done].
  - left. by left.
Qed.

Lemma bearer_step X s evs n hdr e status name rest : reach X s evs ->
  (forall ev r, in_time s0 t0 t1 ev -> rq_auth r = hdr -> authorize_decision (ev_now_check ev) s r required = Denied e) ->
  (exists w, write_bearer_error new_rw (GErr e) = Some (w, true) /\ bearer_answer e w) ->
  e_status e = status -> e_name e = name ->
  (forall evs', reach X s evs' -> safe h n evs' s rest) ->
  safe h (S n) evs s (Send (get_resource sp hdr) (expect_bearer_error status name rest)).
Proof.
  intros Hr Hden Hw Hs Hn Hk. destruct (resource_request hdr) as (r & Hd & Hau & Hh).
  apply (denied_step X s evs n hdr r e); try done; [intros ev Hev; by apply Hden|].
  intros evs' w Hr' (H1 & H2 & H3). subst status name. unfold expect_bearer_error, check_code.
  apply safe_check; [rewrite H1; apply Z.eqb_refl|]. eapply safe_some; [exact H3|unfold is_value; apply seqb_same|].
  apply safe_check; [rewrite H2; reflexivity|]. by apply Hk.
Qed.

Lemma protected_resource_test_ok evs n rest : reach [] s0 evs ->
  (forall evs', reach [] s0 evs' -> safe h n evs' s0 rest) ->
  safe h (6 + n) evs s0 (protected_resource_test sp rest).
Proof.
  intros Hr Hk. pose proof (re_registry _ _ _ _ _ _ Hr) as Hreg. unfold protected_resource_test.
  assert (Hne : sp_invalid_token sp <> "" /\ sp_unknown_token sp <> "" /\ sp_expired_token sp <> "") by (destruct complete as [H _]; rewrite !Forall_cons in H; tauto).
  destruct Hne as (Hne1 & Hne2 & Hne3).
  destruct tokens as (Tinv & (sgu & Hnu & Hu) & _ & (ce & (sge & Hnexp & Hae) & Hexp) & (ci & (sgi & Hni & Hai) & Hti & Hci)).
  inversion Hu as [|? ? Hua _]; subst.
  destruct at_resource as (u & Hur & Hres).
  destruct (resource_request_step resource required (sp_resource sp) u ∅ ∅ Hur Hres) as (r & Hd & Hau & Hh).
  destruct bearer_missing as (w0 & Hw0 & W1 & W2 & W3).
  apply (safe_send h (5 + n) evs s0 _ _ r Hd). intros ev evs1 ->. exists s0, w0. unfold h. rewrite Hh.
  assert (authorize_decision (ev_now_check ev) s0 r required = Denied ProtectedResource) as Hden.
  { unfold authorize_decision, parse_bearer_token. rewrite Hau. reflexivity. }
  unfold authorize. rewrite Hden, Hw0. split; [done|]. unfold check_code.
  apply safe_check; [rewrite W1; reflexivity|]. eapply safe_some; [exact W3|reflexivity|]. apply safe_check; [rewrite W2; reflexivity|].
  apply reach_tail in Hr. fold h.
  apply (bearer_step [] s0 evs1 (4 + n) "invalid" malformed_header); try done.
  { intros ev' r' _ Hr'. unfold authorize_decision, parse_bearer_token. rewrite Hr'. reflexivity. }
  { apply bearer_closed. cbn. tauto. }
  intros evs2 Hr2. destruct (unparsed s0 (sp_invalid_token sp) Hreg Tinv) as (msg & Hmsg & _).
  apply (bearer_step [] s0 evs2 (3 + n) _ (InvalidToken "malformed token")); try done.
  { intros ev' r' _ Hr'. unfold authorize_decision. rewrite (bearer_parsed r' _ Hr' Hne1). by rewrite Hmsg. }
  { apply bearer_closed. cbn. tauto. }
  intros evs3 Hr3. destruct (parsed s0 _ _ Hreg Hnu) as (tu & Hpu & Hsu).
  apply (bearer_step [] s0 evs3 (2 + n) _ (InvalidToken "unknown token")); try done.
  { intros ev' r' _ Hr'. unfold authorize_decision. rewrite (bearer_parsed r' _ Hr' Hne2). by rewrite Hpu, Hsu, Hua. }
  { apply bearer_closed. cbn. tauto. }
  intros evs4 Hr4. destruct (parsed s0 _ _ Hreg Hnexp) as (te & Hpe & Hse).
  apply (bearer_step [] s0 evs4 (1 + n) _ (InvalidToken "expired token")); try done.
  { intros ev' r' Hev Hr'. unfold authorize_decision. rewrite (bearer_parsed r' _ Hr' Hne3). rewrite Hpe, Hse, Hae.
    unfold in_time in Hev. cbv zeta in Hev. by replace (cd_expires_at ce <? ev_now_check ev')%Z with true by lia. }
  { apply bearer_closed. cbn. tauto. }
  intros evs5 Hr5. destruct (parsed s0 _ _ Hreg Hni) as (ti & Hpi & Hsi).
  assert (Hne4 : sp_insufficient_token sp <> "") by (intros He; rewrite He in Hni; by apply names_empty in Hni).
  apply (bearer_step [] s0 evs5 n _ (InsufficientScope required)); try done.
  { intros ev' r' Hev Hr'. unfold authorize_decision. rewrite (bearer_parsed r' _ Hr' Hne4). rewrite Hpi, Hsi, Hai.
    unfold in_time in Hev. cbv zeta in Hev. replace (cd_expires_at ci <? ev_now_check ev')%Z with false by lia.
    assert (scope_includes (cd_scope ci) required = false) as -> by (apply not_true_is_false; by rewrite <- covers_spec). done. }
  { apply bearer_insufficient. }
Qed.

(** ** Authorization requests *)
Definition approving : Prop := sp_implicit_grant sp = true \/ sp_code_grant sp = true.
Lemma redirect_known : approving -> query_unescape (sp_primary_redirect sp) = Some uri /\ uri_described uri /\
  (exists u, parse_request_uri uri = Some u) /\ uri <> "".
Proof.
  intros H. destruct (redirects H) as (H1 & (u & Hu & H2) & H3 & H4 & _). split; [done|].
  split; [split; [by exists u|done]|]. split; [by exists u|]. intros ->. vm_compute in Hu. done.
Qed.

Lemma authorize_request hdr form rt : approving -> rt = "token" \/ rt = "code" ->
  pget form "response_type" = rt -> pget form "client_id" = sp_client sp -> pget form "redirect_uri" = sp_primary_redirect sp ->
  exists r, do_request {| sr_method := "POST"; sr_path := sp_authorize sp; sr_header := hdr; sr_form := form; sr_username := ""; sr_password := "" |} = Some r /\
    forall ev s, same_registry s0 s ->
      h ev s r = respond (authorize_outcome ev s (authreq form uri) (pget form "username") (pget form "password")).
Proof.
  intros Hap Hrt Hf1 Hf2 Hf3. destruct (redirect_known Hap) as (Hq & _ & (u & Hu) & _). destruct client_named as [Hc1 _].
  destruct (post_plain_request resource required "POST" (sp_authorize sp) "authorize" hdr form at_authorize eq_refl eq_refl ltac:(discriminate))
    as (p & auth & ct & Hd & Hp & _ & Hm).
  eexists. split; [exact Hd|]. intros ev s Hreg. unfold h. rewrite Hm. f_equal.
  rewrite handle_authorize by (by apply endpoint_authorize). unfold authorization_endpoint.
  rewrite (authorize_parse "POST" p auth ct form uri u); [|by right|rewrite Hf1; by destruct Hrt as [-> | ->]|by rewrite Hf2|by rewrite Hf3|done].
  cbn [aq_response_type aq_client_id aq_redirect_uri authreq]. rewrite Hf1, Hf2.
  assert (known_response_type rt = true) as -> by (by destruct Hrt as [-> | ->]). cbn [negb].
  destruct (conf_client s Hreg) as (c & -> & _ & _ & _ & _ & ->). rewrite seqb_same. cbn [negb rq_method treq].
  change (seqb "POST" "GET") with false. cbv iota zeta. unfold post_form. rewrite treq_form. cbn [f_post]. rewrite !vget_singles.
  fold (pget form "username") (pget form "password"). unfold authorize_outcome. cbn [aq_response_type authreq]. by rewrite Hf1.
Qed.

Lemma approval_form_get rt sc : pget (approval_form sp rt sc) "response_type" = rt /\
  pget (approval_form sp rt sc) "client_id" = sp_client sp /\ pget (approval_form sp rt sc) "redirect_uri" = sp_primary_redirect sp /\
  pget (approval_form sp rt sc) "scope" = sc /\ pget (approval_form sp rt sc) "state" = "xyz" /\
  pget (approval_form sp rt sc) "username" = "" /\ pget (approval_form sp rt sc) "password" = "".
Proof. repeat split. Qed.
Lemma extend_given params form k v : form !! k = Some v -> pget (extend params form) k = pget form k.
Proof. intros H. unfold pget, extend. by rewrite (lookup_union_Some_l _ _ _ _ H), H. Qed.
Lemma extend_other params form k : form !! k = None -> pget (extend params form) k = setting params k.
Proof. intros H. unfold pget, extend, setting. by rewrite lookup_union_r. Qed.
Lemma extended_get params rt sc : let form := extend params (approval_form sp rt sc) in
  pget form "response_type" = rt /\
  pget form "client_id" = sp_client sp /\ pget form "redirect_uri" = sp_primary_redirect sp /\
  pget form "scope" = sc /\ pget form "state" = "xyz" /\
  pget form "username" = setting params "username" /\ pget form "password" = setting params "password".
Proof.
  cbv zeta. repeat split; try (erewrite extend_given; reflexivity); by apply extend_other.
Qed.

(** What an approval leads to. *)
Definition approved (ev : env) (s : server) (rt sc user password : string) : result :=
  authorize_outcome ev s {| aq_response_type := rt; aq_scope := parse_scope sc; aq_client_id := sp_client sp;
    aq_redirect_uri := uri; aq_state := "xyz" |} user password.
Lemma approval_step params hdrs rt sc : approving -> rt = "token" \/ rt = "code" ->
  exists r, do_request (approval sp params hdrs rt sc) = Some r /\
    forall ev s, same_registry s0 s ->
      h ev s r = respond (approved ev s rt sc (setting params "username") (setting params "password")).
Proof.
  intros Hap Hrt. destruct (extended_get params rt sc) as (G1 & G2 & G3 & G4 & G5 & G6 & G7).
  destruct (authorize_request (extend hdrs ∅) (extend params (approval_form sp rt sc)) rt Hap Hrt G1 G2 G3) as (r & Hd & Hm).
  exists r. split; [exact Hd|]. intros ev s Hreg. rewrite (Hm ev s Hreg). unfold approved, authreq. by rewrite G1, G2, G4, G5, G6, G7.
Qed.
Lemma approval_none_step rt sc : approving -> rt = "token" \/ rt = "code" ->
  exists r, do_request (post (sp_authorize sp) (approval_form sp rt sc)) = Some r /\
    forall ev s, same_registry s0 s -> h ev s r = respond (approved ev s rt sc "" "").
Proof.
  intros Hap Hrt. destruct (approval_form_get rt sc) as (G1 & G2 & G3 & G4 & G5 & G6 & G7).
  destruct (authorize_request ∅ (approval_form sp rt sc) rt Hap Hrt G1 G2 G3) as (r & Hd & Hm).
  exists r. split; [exact Hd|]. intros ev s Hreg. rewrite (Hm ev s Hreg). unfold approved, authreq. by rewrite G1, G2, G4, G5, G6, G7.
Qed.

Definition sent_back (rt : string) (e : error) : error := set_error_redirect e uri "xyz" (seqb rt "token").
Lemma sent_back_answer rt e : approving -> rt = "token" \/ rt = "code" -> e = InvalidScope "" \/ e = AccessDenied "" ->
  exists w, write_outcome new_rw (OError (sent_back rt e)) = Some w /\ rec_code w = 303%Z /\
    loc_param rt w "error" = Some (e_name e) /\ loc_param rt w "state" = Some "xyz".
Proof.
  intros Hap Hrt He. destruct (redirect_known Hap) as (_ & Hud & _ & Hne).
  unfold write_outcome, write_error, write_error_order.
  assert (map_to_list (e_headers (sent_back rt e)) = []) as -> by (by destruct He as [-> | ->]).
  cbn [fold_left]. change (e_redirect_uri (sent_back rt e)) with uri. rewrite (ne_seqb uri "" Hne). cbn [negb].
  change (e_use_fragment (sent_back rt e)) with (seqb rt "token"). unfold loc_param.
  assert (P1 : pget (error_map (sent_back rt e)) "error" = e_name e) by (by destruct He as [-> | ->]).
  assert (P2 : pget (error_map (sent_back rt e)) "state" = "xyz") by (by destruct He as [-> | ->]).
  destruct Hrt as [-> | ->].
  - change (seqb "token" "token") with true. cbv iota.
    destruct (redirect_fragment_answer uri (error_map (sent_back "token" e)) Hud) as (w & Hw & Hc & Hk).
    rewrite Hw. exists w. split; [done|]. split; [done|]. rewrite !Hk. by rewrite P1, P2.
  - change (seqb "code" "token") with false. cbv iota.
    destruct (redirect_answer uri (error_map (sent_back "code" e)) Hud) as (w & Hw & Hc & Hk).
    rewrite Hw. exists w. split; [done|]. split; [done|]. rewrite !Hk by (cbn; tauto). by rewrite P1, P2.
Qed.
Lemma sent_back_step X s evs n q r rt e name rest : approving -> rt = "token" \/ rt = "code" ->
  e = InvalidScope "" \/ e = AccessDenied "" -> e_name e = name -> reach X s evs ->
  do_request q = Some r -> (forall ev, h ev s r = respond (Done s (OError (sent_back rt e)))) ->
  (forall evs', reach X s evs' -> safe h n evs' s rest) ->
  safe h (S n) evs s (Send q (expect_redirected_error rt name rest)).
Proof.
  intros Hap Hrt He <- Hr Hd Ho Hk. destruct (sent_back_answer rt e Hap Hrt He) as (w & Hw & Hc & H1 & H2).
  apply (safe_send h n evs s q _ r Hd). intros ev evs' ->. exists s, w. rewrite Ho. cbn [respond]. rewrite Hw. split; [done|].
  unfold expect_redirected_error, check_code. apply safe_check; [rewrite Hc; reflexivity|].
  eapply safe_some; [exact H1|unfold is_value; apply seqb_same|]. eapply safe_some; [exact H2|reflexivity|]. apply Hk. by apply reach_tail in Hr.
Qed.

Lemma approved_bad_scope ev s rt sc user password : same_registry s0 s -> rt = "token" \/ rt = "code" ->
  sc = sp_invalid_scope sp \/ sc = sp_exceeding_scope sp ->
  approved ev s rt sc user password = Done s (OError (sent_back rt (InvalidScope ""))).
Proof.
  intros Hreg Hrt Hsc. unfold approved, authorize_outcome. cbn [aq_response_type].
  destruct Hrt as [-> | ->]; [change (seqb "token" TokenResponseType) with true|change (seqb "code" TokenResponseType) with false]; cbv iota.
  - unfold handle_implicit. cbn [aq_scope aq_redirect_uri aq_state]. by rewrite bad_scope.
  - unfold handle_code_authorization. cbn [aq_scope aq_redirect_uri aq_state]. by rewrite bad_scope.
Qed.
Lemma approved_bad_owner ev s rt user password : same_registry s0 s -> rt = "token" \/ rt = "code" ->
  ~ password_of s0 user password ->
  approved ev s rt (sp_valid_scope sp) user password = Done s (OError (sent_back rt (AccessDenied ""))).
Proof.
  intros Hreg Hrt Hno. unfold approved, authorize_outcome. cbn [aq_response_type].
  assert (Ho : owner_ok s user password = false) by (apply not_true_is_false; by rewrite owner_spec).
  destruct Hrt as [-> | ->]; [change (seqb "token" TokenResponseType) with true|change (seqb "code" TokenResponseType) with false]; cbv iota.
  - unfold handle_implicit. cbn [aq_scope aq_redirect_uri aq_state]. rewrite valid_scope_allowed by done. cbn [negb]. by rewrite Ho.
  - unfold handle_code_authorization. cbn [aq_scope aq_redirect_uri aq_state]. rewrite valid_scope_allowed by done. cbn [negb]. by rewrite Ho.
Qed.

Lemma approval_refusals_ok X s evs n rt rest : approving -> rt = "token" \/ rt = "code" -> reach X s evs ->
  (forall evs', reach X s evs' -> safe h n evs' s rest) ->
  safe h (4 + n) evs s (approval_refusals sp rt rest).
Proof.
  intros Hap Hrt Hr Hk. pose proof (re_registry _ _ _ _ _ _ Hr) as Hreg. unfold approval_refusals.
  destruct (proj2 users Hap) as (_ & _ & U3 & U4).
  destruct (approval_step (sp_valid_params sp) (sp_valid_headers sp) rt (sp_invalid_scope sp) Hap Hrt) as (r1 & D1 & M1).
  apply (sent_back_step X s evs (3 + n) _ r1 rt (InvalidScope "")); try done; [by left| |].
  { intros ev. rewrite M1 by done. rewrite approved_bad_scope; try done. by left. }
  intros evs1 Hr1.
  destruct (approval_step (sp_valid_params sp) (sp_valid_headers sp) rt (sp_exceeding_scope sp) Hap Hrt) as (r2 & D2 & M2).
  apply (sent_back_step X s evs1 (2 + n) _ r2 rt (InvalidScope "")); try done; [by left| |].
  { intros ev. rewrite M2 by done. rewrite approved_bad_scope; try done. by right. }
  intros evs2 Hr2. destruct (approval_none_step rt (sp_valid_scope sp) Hap Hrt) as (r3 & D3 & M3).
  apply (sent_back_step X s evs2 (1 + n) _ r3 rt (AccessDenied "")); try done; [by right| |].
  { intros ev. rewrite M3 by done. by rewrite approved_bad_owner. }
  intros evs3 Hr3. destruct (approval_step (sp_invalid_params sp) (sp_invalid_headers sp) rt (sp_valid_scope sp) Hap Hrt) as (r4 & D4 & M4).
  apply (sent_back_step X s evs3 n _ r4 rt (AccessDenied "")); try done; [by right|].
  { intros ev. rewrite M4 by done. by rewrite approved_bad_owner. }
Qed.

(** A successful approval. *)
Definition good_user : string := setting (sp_valid_params sp) "username".
Definition good_password : string := setting (sp_valid_params sp) "password".
Lemma approver_ok s : approving -> same_registry s0 s -> owner_ok s good_user good_password = true.
Proof. intros Hap Hreg. destruct (proj2 users Hap) as (U1 & _). by apply owner_spec. Qed.
Lemma approver_utf8 : approving -> valid_utf8 good_user.
Proof. intros Hap. by destruct (proj2 users Hap) as (_ & ? & _). Qed.

Lemma valid_scope_some : exists m, parse_scope (sp_valid_scope sp) = Some m.
Proof. destruct (parse_scope (sp_valid_scope sp)) as [m|] eqn:E; [by exists m|]. exfalso. apply scope_some. rewrite <- valid_scope_items, E. done. Qed.

Lemma implicit_step X s evs n rest : approving -> reach X s evs ->
  (forall s' evs' tok sg, reach X s' evs' -> live_access s' tok sg -> touchable X sg -> safe h n evs' s' (access_token_test sp tok rest)) ->
  safe h (S n) evs s
    (Send (approval sp (sp_valid_params sp) (sp_valid_headers sp) "token" (sp_valid_scope sp)) (fun w =>
    check_code w 303
    (check_some (loc_fragment w "token_type") (is_value "bearer")
    (check_some (loc_fragment w "scope") (is_value (sp_valid_scope sp))
    (check_some (loc_fragment w "expires_in") (is_value (itoa (sp_expires_in sp)))
    (check_some (loc_fragment w "state") (is_value "xyz")
    (check_some (loc_fragment w "refresh_token") is_empty
    (match loc_fragment w "access_token" with
     | None => Crash
     | Some access => Check (not_empty access) (access_token_test sp access rest)
     end)))))))).
Proof.
  intros Hap Hr Hk. destruct (redirect_known Hap) as (_ & Hud & _ & Hne).
  destruct (approval_step (sp_valid_params sp) (sp_valid_headers sp) "token" (sp_valid_scope sp) Hap ltac:(by left)) as (r & Hd & Hm).
  apply (safe_send h n evs s _ _ r Hd). intros ev evs' ->. pose proof (re_registry _ _ _ _ _ _ Hr) as Hreg.
  destruct (draw_first sp s0 t0 t1 evs0 times random X s ev evs' Hr) as (a & src & Hg & Hn & Hin & Hfr & F1 & F2 & F3).
  assert (Hcfg : sv_config s = sv_config s0) by (by destruct Hreg).
  set (sg := signature_string a) in *.
  set (c := {| cd_client_id := sp_client sp; cd_username := good_user;
               cd_expires_at := (ev_now_access ev + cfg_access_lifespan (sv_config s))%Z; cd_scope := parse_scope (sp_valid_scope sp);
               cd_redirect_uri := ""; cd_code := ""; cd_used := false |}).
  set (s' := set_access s (<[sg := c]> (sv_access s))).
  set (t := {| tr_token_type := "bearer"; tr_access_token := token_string a;
               tr_expires_in := Z.quot (cfg_access_lifespan (sv_config s)) second; tr_refresh_token := "";
               tr_scope := parse_scope (sp_valid_scope sp); tr_state := "xyz"; tr_redirect_uri := uri |}).
  assert (Ho : approved ev s "token" (sp_valid_scope sp) good_user good_password = Done s' (OToken t)).
  { unfold approved, authorize_outcome. cbn [aq_response_type]. change (seqb "token" TokenResponseType) with true. cbv iota.
    unfold handle_implicit. cbn [aq_scope aq_redirect_uri aq_state aq_client_id]. rewrite valid_scope_allowed by done. cbn [negb].
    rewrite approver_ok by done. cbn [negb]. unfold issue_tokens. rewrite Hg. reflexivity. }
  destruct (redirect_fragment_answer uri (token_map t) Hud) as (w & Hw & Hc & Hkey).
  exists s', w. rewrite Hm by done. fold good_user good_password. rewrite Ho. cbn [respond write_outcome]. unfold write_token_response.
  change (tr_redirect_uri t) with uri. rewrite (ne_seqb uri "" Hne). cbn [negb]. rewrite Hw. split; [done|].
  destruct valid_scope_some as [m Hms].
  assert (K1 : pget (token_map t) "token_type" = "bearer") by (unfold t; rewrite Hms; reflexivity).
  assert (K2 : pget (token_map t) "scope" = sp_valid_scope sp).
  { transitivity (scope_string (tr_scope t)); [unfold t; rewrite Hms; reflexivity|]. apply scope_text. apply valid_scope_items. }
  assert (K3 : pget (token_map t) "expires_in" = itoa (sp_expires_in sp)).
  { transitivity (itoa (tr_expires_in t)); [unfold t; rewrite Hms; reflexivity|]. cbn [tr_expires_in t]. by rewrite Hcfg, lifespan. }
  assert (K4 : pget (token_map t) "state" = "xyz") by (unfold t; rewrite Hms; reflexivity).
  assert (K5 : pget (token_map t) "refresh_token" = "") by (unfold t; rewrite Hms; reflexivity).
  assert (K6 : pget (token_map t) "access_token" = token_string a) by (unfold t; rewrite Hms; reflexivity).
  unfold check_code. apply safe_check; [rewrite Hc; reflexivity|].
  eapply safe_some; [apply Hkey|rewrite K1; reflexivity|].
  eapply safe_some; [apply Hkey|rewrite K2; unfold is_value; apply seqb_same|].
  eapply safe_some; [apply Hkey|rewrite K3; unfold is_value; apply seqb_same|].
  eapply safe_some; [apply Hkey|rewrite K4; reflexivity|].
  eapply safe_some; [apply Hkey|rewrite K5; reflexivity|].
  rewrite Hkey, K6.
  assert (Hne' : token_string a <> "") by (intros He; rewrite He in Hn; by apply names_empty in Hn).
  apply safe_check; [unfold not_empty; by rewrite (ne_seqb _ "" Hne')|].
  apply (Hk s' evs' _ sg).
  - apply (reach_update sp s0 evs0 X s s' evs' (fun k => k = sg)).
    + by apply reach_tail with ev.
    + done.
    + intros k ->. by apply r_drawn.
    + by intros k ->.
    + intros k Hkk. cbn [s' set_access sv_access sv_refresh sv_codes]. by rewrite lookup_insert_ne.
  - split; [exact Hn|]. exists c. cbn [s' set_access sv_access sv_refresh]. rewrite lookup_insert. split; [done|]. split; [done|].
    cbn [cd_client_id cd_expires_at cd_scope cd_username c]. split; [done|].
    pose proof (r_time X s ev evs' Hr) as Ht. pose proof (in_time_seconds s0 t0 t1 evs0 ev Ht) as [D1 _].
    apply (in_time_facts s0 t0 t1 evs0) in Ht as (_ & T1 & _). rewrite Hcfg. split; [done|].
    split; [unfold covers; rewrite valid_scope_items; apply required_granted|].
    split; [by apply approver_utf8|]. cbn [cd_scope cd_expires_at c]. rewrite valid_scope_items. rewrite Hcfg. split; [apply scope_utf8|exact D1].
  - by apply r_drawn.
Qed.

Lemma implicit_grant_test_ok X s evs n rest : approving -> reach X s evs ->
  (forall s' evs', reach X s' evs' -> safe h n evs' s' rest) ->
  safe h (10 + n) evs s (implicit_grant_test sp rest).
Proof.
  intros Hap Hr Hk. unfold implicit_grant_test. apply (approval_refusals_ok X s evs (6 + n)); try done; [by left|].
  intros evs1 Hr1. apply (implicit_step X s evs1 (5 + n)); try done. intros s' evs' tok sg Hr' Hl Ht.
  apply (access_token_test_ok X s' evs' n tok sg); try done. intros s2 evs2 Hr2 _ _ _. by apply Hk.
Qed.

(** A code that can be redeemed. *)
Definition live_code (s : server) (code sg : string) : Prop :=
  names sec code sg /\ exists c, sv_codes s !! sg = Some c /\ cd_used c = false /\ cd_client_id c = sp_client sp /\
    (t1 <= cd_expires_at c)%Z /\ cd_redirect_uri c = uri /\ items (cd_scope c) = l /\ valid_utf8 (cd_username c).

Lemma get_code_ok X s evs n k : approving -> reach X s evs ->
  (forall s' evs' code sg, reach X s' evs' -> live_code s' code sg -> touchable X sg -> safe h n evs' s' (k code)) ->
  safe h (S n) evs s (get_code sp k).
Proof.
  intros Hap Hr Hk. destruct (redirect_known Hap) as (_ & Hud & _ & Hne). unfold get_code.
  destruct (approval_step (sp_valid_params sp) (sp_valid_headers sp) "code" (sp_valid_scope sp) Hap ltac:(by right)) as (r & Hd & Hm).
  apply (safe_send h n evs s _ _ r Hd). intros ev evs' ->. pose proof (re_registry _ _ _ _ _ _ Hr) as Hreg.
  destruct (draw_first sp s0 t0 t1 evs0 times random X s ev evs' Hr) as (a & src & Hg & Hn & Hin & Hfr & F1 & F2 & F3).
  assert (Hcfg : sv_config s = sv_config s0) by (by destruct Hreg).
  set (sg := signature_string a) in *.
  set (c := {| cd_client_id := sp_client sp; cd_username := good_user;
               cd_expires_at := (ev_now_code ev + cfg_code_lifespan (sv_config s))%Z; cd_scope := parse_scope (sp_valid_scope sp);
               cd_redirect_uri := uri; cd_code := ""; cd_used := false |}).
  set (s' := set_codes s (<[sg := c]> (sv_codes s))).
  set (t := new_code_response (token_string a) uri "xyz").
  assert (Ho : approved ev s "code" (sp_valid_scope sp) good_user good_password = Done s' (OCode t)).
  { unfold approved, authorize_outcome. cbn [aq_response_type]. change (seqb "code" TokenResponseType) with false. cbv iota.
    unfold handle_code_authorization. cbn [aq_scope aq_redirect_uri aq_state aq_client_id]. rewrite valid_scope_allowed by done. cbn [negb].
    rewrite approver_ok by done. cbn [negb]. rewrite Hg. reflexivity. }
  destruct (redirect_answer uri (code_map t) Hud) as (w & Hw & Hc & Hkey).
  exists s', w. rewrite Hm by done. fold good_user good_password. rewrite Ho. cbn [respond write_outcome]. unfold write_code_response.
  change (cr_redirect_uri t) with uri. rewrite Hw. split; [done|].
  unfold check_code. apply safe_check; [rewrite Hc; reflexivity|].
  eapply safe_some; [apply Hkey; cbn; tauto|reflexivity|].
  rewrite Hkey by (cbn; tauto). change (pget (code_map t) "code") with (token_string a).
  assert (Hne' : token_string a <> "") by (intros He; rewrite He in Hn; by apply names_empty in Hn).
  apply safe_check; [unfold not_empty; by rewrite (ne_seqb _ "" Hne')|].
  apply (Hk s' evs' _ sg).
  - apply (reach_update sp s0 evs0 X s s' evs' (fun k => k = sg)).
    + by apply reach_tail with ev.
    + done.
    + intros k' ->. by apply r_drawn.
    + by intros k' ->.
    + intros k' Hkk. cbn [s' set_codes sv_access sv_refresh sv_codes]. by rewrite lookup_insert_ne.
  - split; [exact Hn|]. exists c. cbn [s' set_codes sv_codes]. rewrite lookup_insert. split; [done|]. split; [done|].
    cbn [cd_client_id cd_expires_at cd_scope cd_username cd_redirect_uri c]. split; [done|].
    pose proof (r_time X s ev evs' Hr) as Ht. apply (in_time_facts s0 t0 t1 evs0) in Ht as (_ & _ & _ & T1). rewrite Hcfg. split; [done|].
    split; [done|]. split; [apply valid_scope_items|by apply approver_utf8].
  - by apply r_drawn.
Qed.

Lemma code_form_get code redirect : pget (code_form sp code redirect) "grant_type" = "authorization_code" /\
  pget (code_form sp code redirect) "code" = code /\ pget (code_form sp code redirect) "redirect_uri" = redirect.
Proof. repeat split. Qed.
Lemma takes_primary : approving -> takes (sp_primary_redirect sp) uri.
Proof. intros Hap. destruct (redirect_known Hap) as (H1 & _ & (u & Hu) & _). split; [done|]. right. by exists u. Qed.
Lemma code_dispatch ev s code redirect ru : same_registry s0 s ->
  token_outcome ev s (tokreq (sp_client sp) (sp_secret sp) (code_form sp code redirect) ru) =
  handle_code ev s (tokreq (sp_client sp) (sp_secret sp) (code_form sp code redirect) ru).
Proof. intros Hreg. rewrite conf_dispatch by first [exact Hreg|reflexivity]. reflexivity. Qed.
Lemma code_error X s evs n code redirect ru e name rest : reach X s evs -> takes redirect ru ->
  plain_error e -> e_status e = 400%Z -> e_name e = name ->
  (forall ev, in_time s0 t0 t1 ev -> handle_code ev s (tokreq (sp_client sp) (sp_secret sp) (code_form sp code redirect) ru) = Done s (OError e)) ->
  (forall evs', reach X s evs' -> safe h n evs' s rest) ->
  safe h (S n) evs s (Send (post_conf sp (sp_token sp) (code_form sp code redirect)) (expect_error 400 name rest)).
Proof.
  intros Hr Ht He H4 Hn Ho Hk. destruct client_named as [Hc1 Hc2]. pose proof (re_registry _ _ _ _ _ _ Hr) as Hreg.
  apply (token_error X s evs n (sp_client sp) (sp_secret sp) _ ru e); try done.
  intros ev Hev. rewrite code_dispatch by done. by apply Ho.
Qed.

(** Redeeming. *)
Lemma redeem_step X s evs n code sg k : approving -> reach X s evs -> live_code s code sg -> touchable X sg ->
  (forall s' evs' access refresh a f ca cf cc, reach X s' evs' -> live_access s' access a -> live_refresh s' refresh f ->
     a <> f -> touchable X a -> touchable X f ->
     sv_access s' !! a = Some ca -> cd_code ca = sg -> sv_refresh s' !! f = Some cf -> cd_code cf = sg ->
     sv_codes s' !! sg = Some cc -> cd_used cc = true -> safe h n evs' s' (k access refresh)) ->
  safe h (S n) evs s (Send (post_conf sp (sp_token sp) (code_form sp code (sp_primary_redirect sp))) (expect_tokens sp k)).
Proof.
  intros Hap Hr [Hn (c & Hc & Hus & Hcl & Hex & Hru & Hsc & Hu)] Hts Hk. pose proof (re_registry _ _ _ _ _ _ Hr) as Hreg.
  destruct (code_form_get code (sp_primary_redirect sp)) as (G1 & G2 & G3).
  apply (issue_step X s evs n _ uri (cd_scope c) (cd_username c) sg (fun s1 => set_codes s1 (<[sg := mark_used c]> (sv_codes s1)))); try done.
  - by apply takes_primary.
  - intros ev s1 t Hev Hi. rewrite code_dispatch by done. unfold handle_code. cbn [tq_code tq_client_id tq_redirect_uri tokreq].
    rewrite G2. destruct (parsed s code sg Hreg Hn) as (tk & -> & Hsg). cbv zeta. rewrite Hsg, Hc, Hus.
    unfold in_time in Hev. cbv zeta in Hev. replace (cd_expires_at c <? ev_now_check ev)%Z with false by lia.
    rewrite Hcl, Hru, !seqb_same. cbn [negb]. by rewrite Hi.
  - intros s1 evs' ev a f t Hr1 Hb Fa Ff La Lf Hne Ta Tf.
    pose proof Hb as (B1 & B2 & B3 & B4 & B5 & B6 & B7 & B8 & _).
    eapply (Hk _ evs' _ _ a f); try done.
    + apply (reach_update sp s0 evs0 X s1 _ evs' (fun k => k = sg)); try done.
      * by intros k' ->.
      * intros k' -> Hin. destruct (re_fresh _ _ _ _ _ _ Hr1 sg Hin) as (_ & _ & Hx). rewrite B8 in Hx. cbn [sv_codes] in Hx. congruence.
      * intros k' Hkk. cbn [set_codes sv_access sv_refresh sv_codes]. by rewrite lookup_insert_ne.
    + cbn [set_codes sv_access]. rewrite B8. cbn [sv_access]. apply lookup_insert.
    + done.
    + cbn [set_codes sv_refresh]. rewrite B8. cbn [sv_refresh]. apply lookup_insert.
    + done.
    + cbn [set_codes sv_codes]. apply lookup_insert.
    + done.
Qed.

Lemma replay_step X s evs n code sg cc rest : approving -> reach X s evs -> names sec code sg ->
  sv_codes s !! sg = Some cc -> cd_used cc = true ->
  (forall s' evs', reach X s' evs' -> without_code sg (sv_access s) (sv_access s') -> without_code sg (sv_refresh s) (sv_refresh s') ->
     safe h n evs' s' rest) ->
  safe h (S n) evs s (Send (post_conf sp (sp_token sp) (code_form sp code (sp_primary_redirect sp))) (expect_error 400 "invalid_grant" rest)).
Proof.
  intros Hap Hr Hn Hc Hus Hk. pose proof (re_registry _ _ _ _ _ _ Hr) as Hreg. destruct client_named as [Hc1 Hc2].
  destruct (code_form_get code (sp_primary_redirect sp)) as (G1 & G2 & G3).
  destruct (token_request_step resource required (sp_client sp) (sp_secret sp) (sp_token sp) (code_form sp code (sp_primary_redirect sp)) uri
    at_token Hc1 Hc2 ltac:(by rewrite G1) ltac:(rewrite G3; by apply takes_primary)) as (r & Hd & Hm).
  destruct (error_answer_plain (InvalidGrant "unknown authorization code") ltac:(by apply plain_invalid_grant)) as (w & Hw & Ha & _).
  apply (safe_send h n evs s _ _ r Hd). intros ev evs' ->.
  set (s' := {| sv_config := sv_config s; sv_clients := sv_clients s; sv_users := sv_users s;
             sv_access := revoke_code sg (sv_access s); sv_refresh := revoke_code sg (sv_refresh s); sv_codes := sv_codes s |}).
  exists s', w. unfold h. rewrite Hm. split.
  - rewrite code_dispatch by done. unfold handle_code. cbn [tq_code tokreq].
    rewrite G2. destruct (parsed s code sg Hreg Hn) as (tk & -> & Hsg). cbv zeta. rewrite Hsg, Hc, Hus. cbn [respond]. by rewrite Hw.
  - apply (safe_expect_error n evs' s' (InvalidGrant "unknown authorization code")); try done. apply Hk.
    + apply (reach_replay sp s0 t0 t1 evs0 required l tokens refreshes); [by apply reach_tail in Hr|]. by apply (names_nonempty sec code sg).
    + apply revoke_code_without.
    + apply revoke_code_without.
Qed.

Lemma code_grant_test_ok s evs n rest : sp_code_grant sp = true -> reach [] s evs ->
  (forall s' evs', reach [] s' evs' -> safe h n evs' s' rest) ->
  safe h (34 + n) evs s (code_grant_test sp rest).
Proof.
  intros Hcg Hr Hk. assert (Hap : approving) by (by right). unfold code_grant_test. cbv zeta.
  apply (approval_refusals_ok [] s evs (30 + n)); try done; [by right|]. intros evs1 Hr1.
  apply (get_code_ok [] s evs1 (29 + n)); try done. clear s evs evs1 Hr Hr1. intros s evs code sg Hr Hl Hts.
  pose proof (re_registry _ _ _ _ _ _ Hr) as Hreg. destruct client_named as [Hc1 Hc2]. destruct public_named as [Hp1 Hp2].
  destruct (codes Hcg) as (Cinv & (sgu & Hnu & Hu) & (ce & (sge & Hne & Hae) & Hce1 & Hce2)). inversion Hu as [|? ? Hu1 _]; subst.
  apply (token_error [] s evs (28 + n) (sp_client sp) "invalid" _ uri (InvalidClient "unknown client")); try done.
  { by apply takes_primary. } { by apply plain_invalid_client. } { intros ev _. by apply wrong_secret. }
  intros evs1 Hr1. destruct (unparsed s (sp_invalid_code sp) Hreg Cinv) as (msg & Hmsg & Hasc).
  apply (code_error [] s evs1 (27 + n) _ _ uri (InvalidRequest msg)); try done.
  { by apply takes_primary. } { by apply plain_invalid_request. }
  { intros ev _. unfold handle_code. cbn [tq_code tokreq]. destruct (code_form_get (sp_invalid_code sp) (sp_primary_redirect sp)) as (_ & -> & _). by rewrite Hmsg. }
  intros evs2 Hr2.
  apply (code_error [] s evs2 (26 + n) _ _ uri (InvalidGrant "unknown authorization code")); try done.
  { by apply takes_primary. } { by apply plain_invalid_grant. }
  { intros ev _. unfold handle_code. cbn [tq_code tokreq]. destruct (code_form_get (sp_unknown_code sp) (sp_primary_redirect sp)) as (_ & -> & _).
    destruct (parsed s _ sgu Hreg Hnu) as (t & -> & Hsg). cbv zeta. rewrite Hsg.
    rewrite (re_codes _ _ _ _ _ _ Hr sgu); [by rewrite Hu1|split; [done|by left]|tauto]. }
  intros evs3 Hr3.
  apply (code_error [] s evs3 (25 + n) _ _ uri (InvalidGrant "expired authorization code")); try done.
  { by apply takes_primary. } { by apply plain_invalid_grant. }
  { intros ev Hev. unfold handle_code. cbn [tq_code tokreq]. destruct (code_form_get (sp_expired_code sp) (sp_primary_redirect sp)) as (_ & -> & _).
    destruct (parsed s _ sge Hreg Hne) as (t & -> & Hsg). cbv zeta. rewrite Hsg.
    rewrite (re_codes _ _ _ _ _ _ Hr sge); [|split; [done|by right]|tauto]. rewrite Hae, Hce1.
    unfold in_time in Hev. cbv zeta in Hev. by replace (cd_expires_at ce <? ev_now_check ev)%Z with true by lia. }
  intros evs4 Hr4. destruct Hl as [Hn (c & Hc & Hus & Hcl & Hex & Hru & Hsc & Hut)].
  apply (token_error [] s evs4 (24 + n) (sp_public sp) "" _ uri (InvalidGrant "invalid authorization code ownership")); try done.
  { by apply takes_primary. } { by apply plain_invalid_grant. }
  { intros ev Hev. rewrite public_dispatch by first [exact Hreg|reflexivity]. change (pget (code_form sp code (sp_primary_redirect sp)) "grant_type") with "authorization_code".
    cbv zeta. change (seqb "authorization_code" PasswordGrantType) with false. change (seqb "authorization_code" ClientCredentialsGrantType) with false.
    change (seqb "authorization_code" AuthorizationCodeGrantType) with true. cbv iota.
    unfold handle_code. cbn [tq_code tq_client_id tokreq]. destruct (code_form_get code (sp_primary_redirect sp)) as (_ & -> & _).
    destruct (parsed s _ sg Hreg Hn) as (t & -> & Hsg). cbv zeta. rewrite Hsg, Hc, Hus.
    unfold in_time in Hev. cbv zeta in Hev. replace (cd_expires_at c <? ev_now_check ev)%Z with false by lia.
    rewrite Hcl, (ne_seqb _ _ other_client). done. }
  intros evs5 Hr5. destruct (redirects Hap) as (_ & _ & _ & _ & _ & (other & Ho1 & Ho2 & Ho3)).
  apply (code_error [] s evs5 (23 + n) _ _ other (InvalidGrant "changed redirect uri")); try done.
  { split; [done|by right]. } { by apply plain_invalid_grant. }
  { intros ev Hev. unfold handle_code. cbn [tq_code tq_client_id tq_redirect_uri tokreq]. destruct (code_form_get code (sp_secondary_redirect sp)) as (_ & -> & _).
    destruct (parsed s _ sg Hreg Hn) as (t & -> & Hsg). cbv zeta. rewrite Hsg, Hc, Hus.
    unfold in_time in Hev. cbv zeta in Hev. replace (cd_expires_at c <? ev_now_check ev)%Z with false by lia.
    rewrite Hcl, seqb_same. cbn [negb]. rewrite Hru, (ne_seqb uri other); done. }
  intros evs6 Hr6. assert (Hl : live_code s code sg) by (split; [done|]; by exists c).
  apply (redeem_step [] s evs6 (22 + n) code sg); try done. clear s evs evs1 evs2 evs3 evs4 evs5 evs6 Hr Hr1 Hr2 Hr3 Hr4 Hr5 Hr6 Hreg Hl Hc Hus Hmsg Hn Hts.
  intros s evs access refresh a f ca cf cc Hr La Lf Hne' Ta Tf _ _ _ _ _ _.
  apply (test_tokens_ok [] s evs (5 + n) _ _ a f); try done. clear s evs Hr La Lf Ta Tf Hne'. intros s evs Hr.
  apply (get_code_ok [] s evs (4 + n)); try done. clear s evs Hr. intros s evs code2 sg2 Hr Hl Hts. pose proof Hl as [Hn _].
  apply (redeem_step [] s evs (3 + n) code2 sg2); try done. clear s evs Hr Hl Hts.
  intros s evs access2 refresh2 a2 f2 ca2 cf2 cc2 Hr La Lf Hne' Ta Tf A1 A2 A3 A4 A5 A6.
  apply (replay_step [] s evs (2 + n) code2 sg2 cc2); try done. intros s' evs' Hr' W1 W2.
  destruct (sp_replay sp).
  - assert (N1 : sv_access s' !! a2 = None).
    { destruct (sv_access s' !! a2) as [x|] eqn:E; [|done]. apply (W1 a2 x) in E as [E1 E2]. congruence. }
    assert (N2 : sv_refresh s' !! f2 = None).
    { destruct (sv_refresh s' !! f2) as [x|] eqn:E; [|done]. apply (W2 f2 x) in E as [E1 E2]. congruence. }
    apply (unstored_step [] s' evs' (1 + n) access2 a2); try done; [apply La|].
    intros evs7 w Hr7 (B1 & _). unfold expect_code, check_code. apply safe_check; [rewrite B1; reflexivity|].
    apply (spent_step [] s' evs7 n refresh2 f2); try done; [apply Lf|]. intros evs8 Hr8. by apply Hk.
  - apply (safe_mono h n); [lia|]. by apply Hk.
Qed.

Lemma refresh_grant_test_ok s evs n rest : sp_refresh_grant sp = true -> reach [] s evs ->
  (forall s' evs' X, only_refresh X -> reach X s' evs' -> safe h n evs' s' rest) ->
  safe h (18 + n) evs s (refresh_grant_test sp rest).
Proof.
  intros Hrg Hr Hk. destruct client_named as [Hc1 Hc2]. destruct public_named as [Hp1 Hp2]. unfold refresh_grant_test.
  pose proof (re_registry _ _ _ _ _ _ Hr) as Hreg.
  destruct (refreshes Hrg) as (Rinv & (sgu & Hnu & Hu) & (sg & c & Hn & Hf0 & Ha0 & Hcl & Hex & Hsc & Hcode & Hrd) & (ce & (sge & Hne & Hfe) & Hexp & _)).
  apply Forall_cons in Hu as [Hu1 _].
  assert (KRv : KR sp s0 sg) by (right; right; split; [done|by left]).
  assert (KRu : KR sp s0 sgu) by (right; right; split; [done|right; by left]).
  assert (KRe : KR sp s0 sge) by (right; right; split; [done|right; by right]).
  assert (KAv : KA sp s0 sg) by (right; right; split; [done|done]).
  assert (Hf : sv_refresh s !! sg = Some c) by (rewrite (re_refresh _ _ _ _ _ _ Hr sg); [done|done|tauto]).
  assert (Ha : sv_access s !! sg = None) by (rewrite (re_access _ _ _ _ _ _ Hr sg); [done|done|tauto]).
  assert (Hdisp : forall ev form, pget form "grant_type" = "refresh_token" ->
    token_outcome ev s (tokreq (sp_client sp) (sp_secret sp) form "") = handle_refresh ev s (tokreq (sp_client sp) (sp_secret sp) form "")).
  { intros ev form G. rewrite conf_dispatch; [|done|by rewrite G]. cbv zeta. rewrite G. reflexivity. }
  apply (token_error [] s evs (17 + n) (sp_client sp) "invalid" _ "" (InvalidClient "unknown client")); try done; try exact takes_nothing.
  { by apply plain_invalid_client. } { intros ev _. by apply wrong_secret. }
  intros evs1 Hr1. destruct (unparsed s (sp_invalid_refresh sp) Hreg Rinv) as (msg & Hmsg & Hasc).
  apply (token_error [] s evs1 (16 + n) (sp_client sp) (sp_secret sp) _ "" (InvalidRequest msg)); try done; try exact takes_nothing.
  { by apply plain_invalid_request. }
  { intros ev _. rewrite Hdisp by reflexivity. unfold handle_refresh. cbn [tq_refresh_token tokreq].
    destruct (refresh_form_get (sp_invalid_refresh sp)) as (_ & -> & _). by rewrite Hmsg. }
  intros evs2 Hr2.
  apply (spent_step [] s evs2 (15 + n) (sp_unknown_refresh sp) sgu); try done.
  { rewrite (re_refresh _ _ _ _ _ _ Hr sgu); [done|done|tauto]. }
  intros evs3 Hr3.
  apply (token_error [] s evs3 (14 + n) (sp_client sp) (sp_secret sp) _ "" (InvalidGrant "expired refresh token")); try done; try exact takes_nothing.
  { by apply plain_invalid_grant. }
  { intros ev Hev. rewrite Hdisp by reflexivity. unfold handle_refresh. cbn [tq_refresh_token tokreq].
    destruct (refresh_form_get (sp_expired_refresh sp)) as (_ & -> & _).
    destruct (parsed s _ sge Hreg Hne) as (t & -> & Hsg). cbv zeta. rewrite Hsg.
    rewrite (re_refresh _ _ _ _ _ _ Hr sge); [|done|tauto]. rewrite Hfe.
    unfold in_time in Hev. cbv zeta in Hev. by replace (cd_expires_at ce <? ev_now_check ev)%Z with true by lia. }
  intros evs4 Hr4. destruct (refresh_form_get (sp_valid_refresh sp)) as (G1 & G2 & G3 & G4).
  apply (token_error [] s evs4 (13 + n) (sp_public sp) "" _ "" (InvalidGrant "invalid refresh token ownership")); try done; try exact takes_nothing.
  { by apply plain_invalid_grant. }
  { intros ev Hev. rewrite public_dispatch by first [exact Hreg|reflexivity]. cbv zeta. rewrite G1.
    change (seqb "refresh_token" PasswordGrantType) with false. change (seqb "refresh_token" ClientCredentialsGrantType) with false.
    change (seqb "refresh_token" AuthorizationCodeGrantType) with false. cbv iota.
    unfold handle_refresh. cbn [tq_refresh_token tq_client_id tokreq]. rewrite G2.
    destruct (parsed s _ sg Hreg Hn) as (t & -> & Hsg). cbv zeta. rewrite Hsg, Hf.
    unfold in_time in Hev. cbv zeta in Hev. replace (cd_expires_at c <? ev_now_check ev)%Z with false by lia.
    rewrite Hcl, (ne_seqb _ _ other_client). done. }
  intros evs5 Hr5.
  apply (token_error [] s evs5 (12 + n) (sp_client sp) (sp_secret sp) _ "" (InvalidScope "scope exceeds the originally granted scope")); try done; try exact takes_nothing.
  { by apply plain_invalid_scope. }
  { intros ev Hev. rewrite Hdisp by reflexivity. unfold handle_refresh. cbn [tq_refresh_token tq_client_id tq_scope tokreq].
    change (pget (<["scope":=sp_exceeding_scope sp]> (refresh_form (sp_valid_refresh sp))) "refresh_token") with (sp_valid_refresh sp).
    change (pget (<["scope":=sp_exceeding_scope sp]> (refresh_form (sp_valid_refresh sp))) "scope") with (sp_exceeding_scope sp).
    destruct (parsed s _ sg Hreg Hn) as (t & -> & Hsg). cbv zeta. rewrite Hsg, Hf.
    unfold in_time in Hev. cbv zeta in Hev. replace (cd_expires_at c <? ev_now_check ev)%Z with false by lia.
    rewrite Hcl, seqb_same. cbn [negb].
    assert (Hno : ~ covers (cd_scope c) (parse_scope (sp_exceeding_scope sp))).
    { destruct scopes as (_ & _ & _ & _ & Hin & _ & _ & Hno). intros Hcov. apply Hno. intros x Hx. apply Hin. rewrite <- Hsc. by apply Hcov. }
    assert (scope_empty (parse_scope (sp_exceeding_scope sp)) = false) as ->.
    { destruct (scope_empty (parse_scope (sp_exceeding_scope sp))) eqn:E; [|done]. exfalso. apply Hno. intros x Hx.
      unfold scope_empty in E. by destruct (items (parse_scope (sp_exceeding_scope sp))). }
    assert (scope_includes (cd_scope c) (parse_scope (sp_exceeding_scope sp)) = false) as -> by (apply not_true_is_false; by rewrite <- covers_spec).
    done. }
  intros evs6 Hr6.
  apply (refresh_token_test_ok [sg] s evs6 n (sp_valid_refresh sp) sg).
  - apply (reach_weaken sp s0 evs0 []); [by intros ? []|done].
  - split; [done|]. exists c. done.
  - left. by left.
  - intros s' evs' Hr'. apply (Hk s' evs' [sg]); [|done]. intros k [<-|[]]. by exists c.
Qed.

Lemma authorization_endpoint_test_ok X s evs n rest : approving -> reach X s evs ->
  (forall evs', reach X s evs' -> safe h n evs' s rest) ->
  safe h (5 + n) evs s (authorization_endpoint_test sp rest).
Proof.
  intros Hap Hr Hk. destruct client_named as [Hc1 Hc2]. pose proof (re_registry _ _ _ _ _ _ Hr) as Hreg. unfold authorization_endpoint_test.
  destruct (redirect_known Hap) as (Hq & Hud & (u & Hu) & Hune). destruct (redirects Hap) as (_ & _ & _ & _ & Hinv & _).
  destruct (no_client s Hreg) as [_ Hnoc]. destruct (conf_client s Hreg) as (c & Hcc & _ & _ & _ & _ & Hcu).
  apply (plain_error_step X s evs (4 + n) "POST" (sp_authorize sp) "authorize" ∅ (InvalidRequest "missing response type")); try done.
  { by apply plain_invalid_request. }
  { intros ev p ct Hp. rewrite handle_authorize by (by apply endpoint_authorize). unfold authorization_endpoint, parse_authorization_request.
    rewrite treq_form. cbn [rq_method treq f_form]. change (negb (seqb "POST" "GET") && negb (seqb "POST" "POST")) with false. cbv iota zeta.
    rewrite !vget_singles. reflexivity. }
  intros evs1 Hr1.
  apply (plain_refused_step X s evs1 (3 + n) "POST" (sp_authorize sp) "authorize" _ "unknown client"); try done.
  { intros ev p ct Hp. rewrite handle_authorize by (by apply endpoint_authorize). unfold authorization_endpoint.
    rewrite (authorize_parse "POST" p "" ct _ uri u); [|by right|done|done|exact Hq|done].
    cbn [aq_response_type aq_client_id authreq].
    change (pget (authorize_form "code" "invalid" (sp_primary_redirect sp)) "response_type") with "code".
    change (pget (authorize_form "code" "invalid" (sp_primary_redirect sp)) "client_id") with "invalid".
    change (known_response_type "code") with true. cbn [negb]. by rewrite Hnoc. }
  intros evs2 Hr2.
  assert (Hbad : exists d, ascii_only d = true /\ forall ev p ct, last_segment p = "authorize" ->
    handle ev s (treq "POST" p "" ct (authorize_form "code" (sp_client sp) (sp_invalid_redirect sp))) = Done s (OError (InvalidRequest d))).
  { set (form := authorize_form "code" (sp_client sp) (sp_invalid_redirect sp)).
    assert (F1 : pget form "response_type" = "code") by done. assert (F2 : pget form "client_id" = sp_client sp) by done.
    assert (F3 : pget form "redirect_uri" = sp_invalid_redirect sp) by done.
    destruct (query_unescape (sp_invalid_redirect sp)) as [ru|] eqn:Eq.
    - destruct (parse_request_uri ru) as [u'|] eqn:Eu.
      + exists "invalid redirect URI". split; [done|]. intros ev p ct Hp.
        rewrite handle_authorize by (by apply endpoint_authorize). unfold authorization_endpoint.
        rewrite (authorize_parse "POST" p "" ct form ru u'); [|by right|by rewrite F1|by rewrite F2|by rewrite F3|done].
        cbn [aq_response_type aq_client_id aq_redirect_uri authreq]. rewrite F1, F2. change (known_response_type "code") with true. cbn [negb].
        rewrite Hcc, Hcu, (ne_seqb uri ru); [done|]. congruence.
      + exists (if seqb ru "" then "missing redirect URI" else "invalid redirect URI"). split; [by destruct (seqb ru "")|]. intros ev p ct Hp.
        rewrite handle_authorize by (by apply endpoint_authorize). unfold authorization_endpoint, parse_authorization_request.
        rewrite treq_form. cbn [rq_method treq f_form]. change (negb (seqb "POST" "GET") && negb (seqb "POST" "POST")) with false. cbv iota zeta.
        rewrite !vget_singles. fold (pget form "response_type") (pget form "client_id") (pget form "redirect_uri"). rewrite F1, F2, F3, Eq, Eu.
        change (seqb "code" "") with false. rewrite (ne_seqb _ "" Hc1). by destruct (seqb ru "").
    - exists "missing redirect URI". split; [done|]. intros ev p ct Hp.
      rewrite handle_authorize by (by apply endpoint_authorize). unfold authorization_endpoint, parse_authorization_request.
      rewrite treq_form. cbn [rq_method treq f_form]. change (negb (seqb "POST" "GET") && negb (seqb "POST" "POST")) with false. cbv iota zeta.
      rewrite !vget_singles. fold (pget form "response_type") (pget form "client_id") (pget form "redirect_uri"). rewrite F1, F2, F3, Eq.
      change (seqb "code" "") with false. by rewrite (ne_seqb _ "" Hc1). }
  destruct Hbad as (d & Hasc & Hbad).
  apply (plain_error_step X s evs2 (2 + n) "POST" (sp_authorize sp) "authorize" _ (InvalidRequest d)); try done.
  { by apply plain_invalid_request. }
  intros evs3 Hr3.
  apply (named_error_step X s evs3 (1 + n) (sp_client sp) "" (sp_authorize sp) "authorize" _ (InvalidRequest "unknown response type")); try done.
  { by apply plain_invalid_request. }
  { intros ev p ct Hp. rewrite handle_authorize by (by apply endpoint_authorize). unfold authorization_endpoint.
    rewrite (authorize_parse "POST" p _ ct _ uri u); [|by right|done|done|exact Hq|done]. reflexivity. }
  intros evs4 Hr4. destruct (leads_mounted resource required (sp_authorize sp) "authorize" at_authorize eq_refl) as (pu & Hpu & Hpq & Hp & Hm).
  set (form := authorize_form "token" (sp_client sp) (sp_primary_redirect sp)).
  destruct (do_request_basic "GET" (sp_authorize sp) pu ∅ form (sp_client sp) "" eq_refl ltac:(discriminate) Hpu Hpq Hc1) as [ct Hd].
  apply (safe_send h n evs4 s _ _ _ Hd). intros ev evs5 ->.
  eexists s, _. unfold h. rewrite Hm, handle_authorize by (by apply endpoint_authorize). unfold authorization_endpoint.
  rewrite (authorize_parse "GET" (u_path pu) _ ct form uri u); [|by left|done|done|exact Hq|done].
  cbn [aq_response_type aq_client_id aq_redirect_uri authreq]. change (pget form "response_type") with "token". change (pget form "client_id") with (sp_client sp).
  change (known_response_type "token") with true. cbn [negb]. rewrite Hcc, Hcu, seqb_same. cbn [negb rq_method treq]. change (seqb "GET" "GET") with true. cbv iota.
  split; [reflexivity|]. apply safe_check; [reflexivity|]. apply Hk. by apply reach_tail in Hr4.
Qed.

(** ** spec.go, [Run] *)
Lemma safe_must n evs s b rest : b = true -> safe h n evs s rest -> safe h n evs s (must b rest).
Proof. by intros ->. Qed.
Definition ok (n : nat) (rest : suite) : Prop := forall s evs, reach [] s evs -> safe h n evs s rest.
Definition ok_later (n : nat) (rest : suite) : Prop :=
  forall X s evs, only_refresh X -> reach X s evs -> safe h n evs s rest.
Lemma when_ok n m b test rest : (b = true -> ok n rest -> ok (m + n) (test rest)) -> ok n rest ->
  ok ((if b then m else 0) + n) (when b test rest).
Proof. intros H1 H2 s evs Hr. unfold when. destruct b; [by apply H1|by apply H2]. Qed.
Lemma filled x : x <> "" -> not_empty x = true.
Proof. intros H. unfold not_empty. by rewrite (ne_seqb _ "" H). Qed.
Lemma given_one m m' : m <> None \/ m' <> None -> given m || given m' = true.
Proof. destruct m, m'; cbn; tauto. Qed.

Lemma run_spec_ok : safe h (most_requests sp) evs0 s0 (run_spec sp).
Proof.
  pose proof complete as (Q1 & Q2 & Q3 & Q4 & Q5). rewrite !Forall_cons in Q1.
  unfold run_spec, most_requests. cbv zeta beta. do 13 (apply safe_must; [apply filled; tauto|]).
  apply protected_resource_test_ok; [by apply (reach_start sp s0 evs0 random)|]. intros evs Hr. revert Hr.
  match goal with |- _ -> safe h ?n evs s0 ?p => enough (Hall : ok n p) by exact (Hall s0 evs) end.
  apply when_ok.
  { intros _ Hk s evs' Hr. apply (token_endpoint_test_ok [] s evs' _ _ Hr). intros. by apply Hk. }
  apply when_ok.
  { intros Hb Hk s evs' Hr. apply orb_true_iff in Hb. destruct (Q2 Hb) as (Q6 & _). rewrite !Forall_cons in Q6.
    do 3 (apply safe_must; [apply filled; tauto|]).
    apply (authorization_endpoint_test_ok [] s evs' _ _ Hb Hr). intros. by apply Hk. }
  apply when_ok.
  { intros Hb Hk s evs' Hr. destruct (Q3 Hb) as (? & ?). do 2 (apply safe_must; [by apply filled|]).
    apply (password_grant_test_ok [] s evs' _ _ Hb Hr). intros. by apply Hk. }
  apply when_ok.
  { intros Hb Hk s evs' Hr. apply (client_credentials_grant_test_ok [] s evs' _ _ Hr). intros. by apply Hk. }
  apply when_ok.
  { intros Hb Hk s evs' Hr. destruct (Q2 (or_introl Hb)) as (_ & Q6 & Q7). do 2 (apply safe_must; [by apply given_one|]).
    apply (implicit_grant_test_ok [] s evs' _ _ (or_introl Hb) Hr). intros. by apply Hk. }
  apply when_ok.
  { intros Hb Hk s evs' Hr. destruct (Q2 (or_intror Hb)) as (_ & Q6 & Q7). do 2 (apply safe_must; [by apply given_one|]).
    destruct (Q4 Hb) as (? & ? & ?). do 3 (apply safe_must; [by apply filled|]).
    apply (code_grant_test_ok s evs' _ _ Hb Hr). intros. by apply Hk. }
  match goal with |- ok (_ + ?n) (when _ _ ?p) => enough (Hlast : ok_later n p) end.
  { intros s evs' Hr. unfold when. destruct (sp_refresh_grant sp) eqn:Hb.
    - destruct (Q5 eq_refl) as (? & ? & ? & ?). do 4 (apply safe_must; [by apply filled|]).
      apply (refresh_grant_test_ok s evs' _ _ Hb Hr). intros s' evs'' X HX Hr'. by apply (Hlast X).
    - apply (Hlast []); [by intros ? []|done]. }
  intros X s evs' HX Hr.
  assert (Hend : forall s' evs', reach X s' evs' ->
    safe h (if negb (seqb (sp_revocation sp) "") then 14 else 0) evs' s'
      (when (not_empty (sp_revocation sp)) (revocation_endpoint_test sp) Finish)).
  { intros s' evs'' Hr'. unfold when, not_empty. destruct (seqb (sp_revocation sp) "") eqn:E; cbn [negb]; [apply safe_finish|].
    apply seqb_false in E. apply (revocation_endpoint_test_ok X s' evs'' 0); try done. intros. apply safe_finish. }
  unfold when at 1, not_empty at 1. destruct (seqb (sp_introspection sp) "") eqn:E; cbn [negb].
  - by apply Hend.
  - apply seqb_false in E. apply (introspection_endpoint_test_ok X s evs'); try done. intros. by apply Hend.
Qed.
End Tests.
