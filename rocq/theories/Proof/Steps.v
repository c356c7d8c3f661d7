(** All things a request can do, one constructor for each. *)
From Verif.Model Require Import Server.
From Verif.Proof Require Import StrFacts ServerFacts.

Definition new_cred (client username : string) (expires : Z) (sc : scope) (code : string) : credential :=
  {| cd_client_id := client; cd_username := username; cd_expires_at := expires; cd_scope := sc;
     cd_redirect_uri := ""; cd_code := code; cd_used := false |}.

(** issue_tokens without the refresh token. *)
Definition issued_access (ev : env) (s : server) (sc : scope) (client username code : string)
  (s' : server) (t : token_response) : Prop :=
  exists a src,
    cfg_must_generate (sv_config s) (ev_rand ev) = Some (a, src) /\
    t = {| tr_token_type := "bearer"; tr_access_token := token_string a;
           tr_expires_in := Z.quot (cfg_access_lifespan (sv_config s)) second;
           tr_refresh_token := ""; tr_scope := sc; tr_state := ""; tr_redirect_uri := "" |} /\
    s' = set_access s (<[signature_string a :=
           new_cred client username (ev_now_access ev + cfg_access_lifespan (sv_config s))%Z sc code]> (sv_access s)).
(** issue_tokens with the refresh token. *)
Definition issued_both (ev : env) (s : server) (sc : scope) (client username code : string)
  (s' : server) (t : token_response) : Prop :=
  exists a src f src',
    cfg_must_generate (sv_config s) (ev_rand ev) = Some (a, src) /\
    cfg_must_generate (sv_config s) src = Some (f, src') /\
    t = {| tr_token_type := "bearer"; tr_access_token := token_string a;
           tr_expires_in := Z.quot (cfg_access_lifespan (sv_config s)) second;
           tr_refresh_token := token_string f; tr_scope := sc; tr_state := ""; tr_redirect_uri := "" |} /\
    s' = {| sv_config := sv_config s; sv_clients := sv_clients s; sv_users := sv_users s;
            sv_access := <[signature_string a :=
              new_cred client username (ev_now_access ev + cfg_access_lifespan (sv_config s))%Z sc code]> (sv_access s);
            sv_refresh := <[signature_string f :=
              new_cred client username (ev_now_refresh ev + cfg_refresh_lifespan (sv_config s))%Z sc code]> (sv_refresh s);
            sv_codes := sv_codes s |}.

Lemma issue_access_spec ev s sc client username code :
  match issue_tokens ev s false sc client username code with
  | Some (s', t) => issued_access ev s sc client username code s' t
  | None => cfg_must_generate (sv_config s) (ev_rand ev) = None
  end.
Proof.
  unfold issue_tokens. cbv zeta. destruct (cfg_must_generate (sv_config s) (ev_rand ev)) as [[a src]|] eqn:E; [|done].
  exists a, src. done.
Qed.
Lemma issue_both_spec ev s sc client username code :
  match issue_tokens ev s true sc client username code with
  | Some (s', t) => issued_both ev s sc client username code s' t
  | None => cfg_must_generate (sv_config s) (ev_rand ev) = None \/
            exists a src, cfg_must_generate (sv_config s) (ev_rand ev) = Some (a, src) /\
                          cfg_must_generate (sv_config s) src = None
  end.
Proof.
  unfold issue_tokens. cbv zeta. destruct (cfg_must_generate (sv_config s) (ev_rand ev)) as [[a src]|] eqn:E; [|auto].
  destruct (cfg_must_generate (sv_config s) src) as [[f src']|] eqn:E'; [|eauto].
  exists a, src, f, src'. done.
Qed.

(** The random source does not deliver enough for one or for two keys. *)
Definition no_key (ev : env) (s : server) : Prop := cfg_must_generate (sv_config s) (ev_rand ev) = None.
Definition no_two_keys (ev : env) (s : server) : Prop :=
  no_key ev s \/ exists a src, cfg_must_generate (sv_config s) (ev_rand ev) = Some (a, src) /\
                               cfg_must_generate (sv_config s) src = None.

(** Preconditions of the three kinds of requests. *)
Definition at_authorize (s : server) (r : request) (req : authorization_request) (c : entity) : Prop :=
  last_segment (rq_path r) = "authorize" /\ parse_authorization_request r = inl req /\
  known_response_type (aq_response_type req) = true /\
  sv_clients s !! aq_client_id req = Some c /\ en_redirect_uri c = aq_redirect_uri req.
Definition at_token (s : server) (r : request) (req : token_request) (c : entity) : Prop :=
  last_segment (rq_path r) = "token" /\ parse_token_request r = inl req /\
  sv_clients s !! tq_client_id req = Some c /\ client_ok c (tq_client_secret req) = true.
Definition at_lookup (seg : string) (s : server) (r : request) (req : lookup_request) (t : hs_token) : Prop :=
  last_segment (rq_path r) = seg /\ lookup_prologue s r = inl (req, t).

Definition allowed (s : server) (sc : scope) : Prop :=
  scope_includes (cfg_allowed_scope (sv_config s)) sc = true.
Definition r_user (r : request) : string := vget (post_form r) "username".
Definition r_password (r : request) : string := vget (post_form r) "password".

Definition code_cred (ev : env) (s : server) (req : authorization_request) (username : string) : credential :=
  {| cd_client_id := aq_client_id req; cd_username := username;
     cd_expires_at := (ev_now_code ev + cfg_code_lifespan (sv_config s))%Z;
     cd_scope := aq_scope req; cd_redirect_uri := aq_redirect_uri req; cd_code := ""; cd_used := false |}.

Inductive handled (ev : env) (s : server) (r : request) : result -> Prop :=
| h_error e : plain_error e -> handled ev s r (Done s (OError e))
| h_redirect_error req c e : at_authorize s r req c -> rq_method r = "POST" -> redirect_error req e ->
    handled ev s r (Done s (OError e))
| h_notice req c : at_authorize s r req c -> rq_method r = "GET" -> handled ev s r (Done s ONotice)
| h_implicit req c s' t : at_authorize s r req c -> rq_method r = "POST" -> aq_response_type req = "token" ->
    allowed s (aq_scope req) -> owner_ok s (r_user r) (r_password r) = true ->
    issued_access ev s (aq_scope req) (aq_client_id req) (r_user r) "" s' t ->
    handled ev s r (Done s' (OToken (set_token_redirect t (aq_redirect_uri req) (aq_state req))))
| h_code req c k src : at_authorize s r req c -> rq_method r = "POST" -> aq_response_type req = "code" ->
    allowed s (aq_scope req) -> owner_ok s (r_user r) (r_password r) = true ->
    cfg_must_generate (sv_config s) (ev_rand ev) = Some (k, src) ->
    handled ev s r (Done (set_codes s (<[signature_string k := code_cred ev s req (r_user r)]> (sv_codes s)))
      (OCode (new_code_response (token_string k) (aq_redirect_uri req) (aq_state req))))
| h_authorize_panic req c : at_authorize s r req c -> rq_method r = "POST" -> no_key ev s ->
    handled ev s r (Panic s)
| h_password req c s' t : at_token s r req c -> tq_grant_type req = "password" ->
    owner_ok s (tq_username req) (tq_password req) = true -> allowed s (tq_scope req) ->
    issued_both ev s (tq_scope req) (tq_client_id req) (tq_username req) "" s' t ->
    handled ev s r (Done s' (OToken t))
| h_client_credentials req c s' t : at_token s r req c -> tq_grant_type req = "client_credentials" ->
    en_confidential c = true -> allowed s (tq_scope req) ->
    issued_both ev s (tq_scope req) (tq_client_id req) "" "" s' t ->
    handled ev s r (Done s' (OToken t))
| h_redeem req c k d s' t : at_token s r req c -> tq_grant_type req = "authorization_code" ->
    parse_token (cfg_secret (sv_config s)) (tq_code req) = inl k ->
    sv_codes s !! signature_string k = Some d -> cd_used d = false ->
    (ev_now_check ev <= cd_expires_at d)%Z -> cd_client_id d = tq_client_id req ->
    cd_redirect_uri d = tq_redirect_uri req ->
    issued_both ev s (cd_scope d) (tq_client_id req) (cd_username d) (signature_string k) s' t ->
    handled ev s r (Done (set_codes s' (<[signature_string k := mark_used d]> (sv_codes s))) (OToken t))
| h_replay req c k d : at_token s r req c -> tq_grant_type req = "authorization_code" ->
    parse_token (cfg_secret (sv_config s)) (tq_code req) = inl k ->
    sv_codes s !! signature_string k = Some d -> cd_used d = true ->
    handled ev s r (Done {| sv_config := sv_config s; sv_clients := sv_clients s; sv_users := sv_users s;
        sv_access := revoke_code (signature_string k) (sv_access s);
        sv_refresh := revoke_code (signature_string k) (sv_refresh s); sv_codes := sv_codes s |}
      (OError (InvalidGrant "unknown authorization code")))
| h_refresh req c k d s' t sc : at_token s r req c -> tq_grant_type req = "refresh_token" ->
    parse_token (cfg_secret (sv_config s)) (tq_refresh_token req) = inl k ->
    sv_refresh s !! signature_string k = Some d ->
    (ev_now_check ev <= cd_expires_at d)%Z -> cd_client_id d = tq_client_id req ->
    sc = (if scope_empty (tq_scope req) then cd_scope d else tq_scope req) ->
    scope_includes (cd_scope d) sc = true ->
    issued_both ev s sc (tq_client_id req) (cd_username d) "" s' t ->
    handled ev s r (Done (set_refresh s' (delete (signature_string k) (sv_refresh s'))) (OToken t))
| h_token_panic req c : at_token s r req c -> no_two_keys ev s -> handled ev s r (Panic s)
| h_revoked req t : at_lookup "revoke" s r req t ->
    (forall a, sv_access s !! signature_string t = Some a -> cd_client_id a = lq_client_id req) ->
    (forall f, sv_refresh s !! signature_string t = Some f -> cd_client_id f = lq_client_id req) ->
    handled ev s r (Done {| sv_config := sv_config s; sv_clients := sv_clients s; sv_users := sv_users s;
        sv_access := delete (signature_string t) (sv_access s);
        sv_refresh := delete (signature_string t) (sv_refresh s); sv_codes := sv_codes s |} ORevoked)
| h_half_revoked req t a f : at_lookup "revoke" s r req t ->
    sv_access s !! signature_string t = Some a -> cd_client_id a = lq_client_id req ->
    sv_refresh s !! signature_string t = Some f -> cd_client_id f <> lq_client_id req ->
    handled ev s r (Done (set_access s (delete (signature_string t) (sv_access s)))
                         (OError (InvalidClient "wrong client")))
| h_introspected req t : at_lookup "introspect" s r req t ->
    (forall a, sv_access s !! signature_string t = Some a -> cd_client_id a = lq_client_id req) ->
    (forall f, sv_refresh s !! signature_string t = Some f -> cd_client_id f = lq_client_id req) ->
    handled ev s r (Done s (OIntro
      (match sv_refresh s !! signature_string t with
       | Some f => describe f "refresh_token"
       | None => match sv_access s !! signature_string t with
                 | Some a => describe a "access_token"
                 | None => new_introspection_response false None "" "" ""
                 end
       end)))
| h_not_found : (last_segment (rq_path r) <> "authorize" /\ last_segment (rq_path r) <> "token" /\
      last_segment (rq_path r) <> "introspect" /\ last_segment (rq_path r) <> "revoke") ->
    handled ev s r (Done s ONotFound).

Lemma server_eta s : {| sv_config := sv_config s; sv_clients := sv_clients s; sv_users := sv_users s;
  sv_access := sv_access s; sv_refresh := sv_refresh s; sv_codes := sv_codes s |} = s.
Proof. by destruct s. Qed.

Lemma authorization_handled ev s r : last_segment (rq_path r) = "authorize" ->
  handled ev s r (authorization_endpoint ev s r).
Proof.
  intros Hseg. unfold authorization_endpoint.
  destruct (parse_authorization_request r) as [req|e] eqn:Ep; [|constructor; by eapply parse_authorization_inr].
  destruct (known_response_type (aq_response_type req)) eqn:Ek; cbn [negb]; [|constructor; auto].
  destruct (sv_clients s !! aq_client_id req) as [c|] eqn:Ec; [|constructor; auto].
  destruct (seqb (en_redirect_uri c) (aq_redirect_uri req)) eqn:Eu; cbn [negb]; [|constructor; auto].
  apply seqb_true in Eu.
  assert (Hat : at_authorize s r req c) by done.
  destruct (parse_authorization_inl r req Ep) as ([Hm|Hm] & _).
  - rewrite Hm. change (seqb "GET" "GET") with true. cbv iota. by eapply h_notice.
  - rewrite Hm. change (seqb "POST" "GET") with false. cbv iota zeta.
    fold (r_user r) (r_password r).
    destruct (seqb (aq_response_type req) TokenResponseType) eqn:Et.
    + unfold handle_implicit.
      destruct (scope_includes (cfg_allowed_scope (sv_config s)) (aq_scope req)) eqn:Es; cbn [negb].
      2:{ eapply h_redirect_error; [done..|]. eexists. split; [by left|]. unfold TokenResponseType in Et. by rewrite Et. }
      destruct (owner_ok s (r_user r) (r_password r)) eqn:Eo; cbn [negb].
      2:{ eapply h_redirect_error; [done..|]. eexists. split; [by right|]. unfold TokenResponseType in Et. by rewrite Et. }
      pose proof (issue_access_spec ev s (aq_scope req) (aq_client_id req) (r_user r) "") as Hi.
      destruct (issue_tokens _ _ _ _ _ _ _) as [[s' t]|]; [|by eapply h_authorize_panic].
      eapply h_implicit; try done. by apply seqb_true in Et.
    + assert (Hc : aq_response_type req = "code").
      { unfold known_response_type in Ek. rewrite Et in Ek. by apply seqb_true in Ek. }
      unfold handle_code_authorization.
      destruct (scope_includes (cfg_allowed_scope (sv_config s)) (aq_scope req)) eqn:Es; cbn [negb].
      2:{ eapply h_redirect_error; [done..|]. eexists. split; [by left|]. unfold TokenResponseType in Et. by rewrite Et. }
      destruct (owner_ok s (r_user r) (r_password r)) eqn:Eo; cbn [negb].
      2:{ eapply h_redirect_error; [done..|]. eexists. split; [by right|]. unfold TokenResponseType in Et. by rewrite Et. }
      destruct (cfg_must_generate (sv_config s) (ev_rand ev)) as [[k src]|] eqn:Eg; [|by eapply h_authorize_panic].
      by eapply h_code.
Qed.

Lemma token_handled ev s r : last_segment (rq_path r) = "token" -> handled ev s r (token_endpoint ev s r).
Proof.
  intros Hseg. unfold token_endpoint.
  destruct (parse_token_request r) as [req|e] eqn:Ep; [|constructor; by eapply parse_token_inr].
  destruct (known_grant_type (tq_grant_type req)) eqn:Ek; cbn [negb]; [|constructor; auto].
  destruct (sv_clients s !! tq_client_id req) as [c|] eqn:Ec; [|constructor; auto].
  destruct (client_ok c (tq_client_secret req)) eqn:Eu; cbn [negb]; [|constructor; auto].
  assert (Hat : at_token s r req c) by done.
  destruct (seqb (tq_grant_type req) PasswordGrantType) eqn:E1.
  { apply seqb_true in E1. unfold handle_password.
    destruct (owner_ok s (tq_username req) (tq_password req)) eqn:Eo; cbn [negb]; [|constructor; auto].
    destruct (scope_includes (cfg_allowed_scope (sv_config s)) (tq_scope req)) eqn:Es; cbn [negb]; [|constructor; auto].
    pose proof (issue_both_spec ev s (tq_scope req) (tq_client_id req) (tq_username req) "") as Hi.
    destruct (issue_tokens _ _ _ _ _ _ _) as [[s' t]|]; [by eapply h_password|by eapply h_token_panic]. }
  destruct (seqb (tq_grant_type req) ClientCredentialsGrantType) eqn:E2.
  { apply seqb_true in E2. unfold handle_client_credentials. rewrite Ec.
    destruct (en_confidential c) eqn:Eo; cbn [negb]; [|constructor; auto].
    destruct (scope_includes (cfg_allowed_scope (sv_config s)) (tq_scope req)) eqn:Es; cbn [negb]; [|constructor; auto].
    pose proof (issue_both_spec ev s (tq_scope req) (tq_client_id req) "" "") as Hi.
    destruct (issue_tokens _ _ _ _ _ _ _) as [[s' t]|]; [by eapply h_client_credentials|by eapply h_token_panic]. }
  destruct (seqb (tq_grant_type req) AuthorizationCodeGrantType) eqn:E3.
  { apply seqb_true in E3. unfold handle_code.
    destruct (parse_token (cfg_secret (sv_config s)) (tq_code req)) as [k|msg] eqn:Et; [|constructor; auto].
    cbv zeta. destruct (sv_codes s !! signature_string k) as [d|] eqn:Ed; [|constructor; auto].
    destruct (cd_used d) eqn:Eused; [exact (h_replay ev s r req c k d Hat E3 Et Ed Eused)|].
    destruct (Z.ltb_spec (cd_expires_at d) (ev_now_check ev)); [constructor; auto|].
    destruct (seqb (cd_client_id d) (tq_client_id req)) eqn:Eo; cbn [negb]; [|constructor; auto].
    destruct (seqb (cd_redirect_uri d) (tq_redirect_uri req)) eqn:Er; cbn [negb]; [|constructor; auto].
    pose proof (issue_both_spec ev s (cd_scope d) (tq_client_id req) (cd_username d) (signature_string k)) as Hi.
    destruct (issue_tokens _ _ _ _ _ _ _) as [[s' t]|]; [|by eapply h_token_panic].
    apply seqb_true in Eo, Er.
    assert (sv_codes s' = sv_codes s) as ->. { destruct Hi as (? & ? & ? & ? & _ & _ & _ & ->). done. }
    by eapply h_redeem. }
  assert (E4 : tq_grant_type req = "refresh_token").
  { unfold known_grant_type in Ek. rewrite E1, E2, E3 in Ek. by apply seqb_true in Ek. }
  unfold handle_refresh.
  destruct (parse_token (cfg_secret (sv_config s)) (tq_refresh_token req)) as [k|msg] eqn:Et; [|constructor; auto].
  cbv zeta. destruct (sv_refresh s !! signature_string k) as [d|] eqn:Ed; [|constructor; auto].
  destruct (Z.ltb_spec (cd_expires_at d) (ev_now_check ev)); [constructor; auto|].
  destruct (seqb (cd_client_id d) (tq_client_id req)) eqn:Eo; cbn [negb]; [|constructor; auto].
  destruct (scope_includes (cd_scope d) (if scope_empty (tq_scope req) then cd_scope d else tq_scope req)) eqn:Es;
    cbn [negb]; [|constructor; auto].
  pose proof (issue_both_spec ev s (if scope_empty (tq_scope req) then cd_scope d else tq_scope req)
    (tq_client_id req) (cd_username d) "") as Hi.
  destruct (issue_tokens _ _ _ _ _ _ _) as [[s' t]|]; [|by eapply h_token_panic].
  apply seqb_true in Eo. by eapply h_refresh.
Qed.

Lemma revoke_token_owner m sg c a : m !! sg = Some a -> cd_client_id a = c -> revoke_token c m sg = delete sg m.
Proof. intros H <-. unfold revoke_token. rewrite H, seqb_refl. done. Qed.

Lemma revocation_handled ev s r : last_segment (rq_path r) = "revoke" -> handled ev s r (revocation_endpoint s r).
Proof.
  intros Hseg. unfold revocation_endpoint.
  destruct (lookup_prologue s r) as [[req t]|e] eqn:Ep; [|constructor; by eapply prologue_inr].
  assert (Hat : at_lookup "revoke" s r req t) by done. cbv zeta.
  destruct (sv_access s !! signature_string t) as [a|] eqn:Ea.
  - destruct (seqb (cd_client_id a) (lq_client_id req)) eqn:Eo; cbn [negb]; [|constructor; auto]. apply seqb_true in Eo.
    rewrite (revoke_token_owner _ _ _ a) by done. cbn [sv_refresh set_access].
    destruct (sv_refresh s !! signature_string t) as [f|] eqn:Ef.
    + destruct (seqb (cd_client_id f) (lq_client_id req)) eqn:Eo'; cbn [negb].
      * apply seqb_true in Eo'. rewrite (revoke_token_owner _ _ _ f) by done.
        apply (h_revoked ev s r req t); [done|congruence|congruence].
      * apply seqb_false in Eo'. by eapply h_half_revoked.
    + assert (sv_refresh s = delete (signature_string t) (sv_refresh s)) as Hd by (by rewrite delete_notin).
      unfold set_access. rewrite Hd. apply (h_revoked ev s r req t); [done|congruence|congruence].
  - assert (sv_access s = delete (signature_string t) (sv_access s)) as Hd by (by rewrite delete_notin).
    destruct (sv_refresh s !! signature_string t) as [f|] eqn:Ef.
    + destruct (seqb (cd_client_id f) (lq_client_id req)) eqn:Eo'; cbn [negb].
      * apply seqb_true in Eo'. rewrite (revoke_token_owner _ _ _ f) by done. unfold set_refresh. rewrite Hd.
        apply (h_revoked ev s r req t); [done|congruence|congruence].
      * constructor. auto.
    + assert (sv_refresh s = delete (signature_string t) (sv_refresh s)) as Hd' by (by rewrite delete_notin).
      rewrite <- (server_eta s) at 2. rewrite Hd, Hd'. apply (h_revoked ev s r req t); [done|congruence|congruence].
Qed.

Lemma introspection_handled ev s r : last_segment (rq_path r) = "introspect" ->
  handled ev s r (introspection_endpoint s r).
Proof.
  intros Hseg. unfold introspection_endpoint.
  destruct (lookup_prologue s r) as [[req t]|e] eqn:Ep; [|constructor; by eapply prologue_inr].
  assert (Hat : at_lookup "introspect" s r req t) by done. cbv zeta.
  pose proof (h_introspected ev s r req t Hat) as Hok.
  destruct (sv_access s !! signature_string t) as [a|] eqn:Ea.
  - destruct (seqb (cd_client_id a) (lq_client_id req)) eqn:Eo; cbn [negb]; [|constructor; auto]. apply seqb_true in Eo.
    destruct (sv_refresh s !! signature_string t) as [f|] eqn:Ef.
    + destruct (seqb (cd_client_id f) (lq_client_id req)) eqn:Eo'; cbn [negb]; [|constructor; auto]. apply seqb_true in Eo'.
      apply Hok; congruence.
    + apply Hok; congruence.
  - destruct (sv_refresh s !! signature_string t) as [f|] eqn:Ef.
    + destruct (seqb (cd_client_id f) (lq_client_id req)) eqn:Eo'; cbn [negb]; [|constructor; auto]. apply seqb_true in Eo'.
      apply Hok; congruence.
    + apply Hok; congruence.
Qed.

Theorem handle_handled ev s r : handled ev s r (handle ev s r).
Proof.
  unfold handle. cbv zeta.
  destruct (seqb (last_segment (rq_path r)) "authorize") eqn:E1; [apply seqb_true in E1; by apply authorization_handled|].
  destruct (seqb (last_segment (rq_path r)) "token") eqn:E2; [apply seqb_true in E2; by apply token_handled|].
  destruct (seqb (last_segment (rq_path r)) "introspect") eqn:E3; [apply seqb_true in E3; by apply introspection_handled|].
  destruct (seqb (last_segment (rq_path r)) "revoke") eqn:E4; [apply seqb_true in E4; by apply revocation_handled|].
  apply seqb_false in E1, E2, E3, E4. by constructor.
Qed.
