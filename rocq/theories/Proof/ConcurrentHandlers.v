(** Run alone, the programs of Concurrent.v do what the functions of Server.v do. *)
From Verif.Model Require Import Server History Concurrent.
From Verif.Spec Require Import ServerSpec ConcurrentSpec.
From Verif.Proof Require Import GrantProofs ConcurrentWp.
#[local] Opaque parse_token must_generate.

(** The outcome and the server agree with the result of the function. *)
Definition agrees (r : result) (m : mem) (x : option outcome) : Prop :=
  match r with
  | Done s o => x = Some o /\ holds m s
  | Panic s => x = None /\ holds m s
  end.

Lemma holds_config m s : holds m s -> me_config m = sv_config s.
Proof. by intros (H & _). Qed.
Lemma holds_clients m s : holds m s -> me_clients m = sv_clients s.
Proof. by intros (_ & H & _). Qed.
Lemma holds_users m s : holds m s -> me_users m = sv_users s.
Proof. by intros (_ & _ & H & _). Qed.

Lemma issue_wp ev m s b sc id u k K Q : holds m s ->
  (forall s' r m', issue_tokens ev s b sc id u k = Some (s', r) -> holds m' s' ->
     me_codes m' = me_codes m ->
     (forall l c, me_heap m !! l = Some c -> me_heap m' !! l = Some c) ->
     wp (K r) m' Q) ->
  (issue_tokens ev s b sc id u k = None -> Q m None) ->
  wp (issue_prog ev b sc id u k K) m Q.
Proof.
  intros H HK HN. unfold issue_prog. pose proof (holds_config _ _ H) as Hc.
  unfold issue_tokens in HK, HN. set (cfg := sv_config s) in *. cbn [wp]. rewrite Hc.
  destruct (cfg_must_generate cfg (ev_rand ev)) as [[access src]|]; [|by apply HN].
  destruct b.
  - cbn [wp]. rewrite Hc. destruct (cfg_must_generate cfg src) as [[refresh src']|]; [|by apply HN].
    cbn [wp]. rewrite Hc. intros la Hla. change (me_config (me_set_table _ _ _)) with (me_config m). rewrite Hc. intros lr Hlr.
    destruct (holds_new _ _ la {| cd_client_id := id; cd_username := u; cd_expires_at := (ev_now_access ev + cfg_access_lifespan cfg)%Z;
       cd_scope := sc; cd_redirect_uri := ""; cd_code := k; cd_used := false |} H Hla) as [H1 L1].
    apply (holds_insert _ _ TAccess (signature_string access) la {| cd_client_id := id; cd_username := u; cd_expires_at := (ev_now_access ev + cfg_access_lifespan cfg)%Z;
       cd_scope := sc; cd_redirect_uri := ""; cd_code := k; cd_used := false |}) in H1; [|done|by cbn; rewrite lookup_insert].
    destruct (holds_new _ _ lr {| cd_client_id := id; cd_username := u; cd_expires_at := (ev_now_refresh ev + cfg_refresh_lifespan cfg)%Z;
       cd_scope := sc; cd_redirect_uri := ""; cd_code := k; cd_used := false |} H1 Hlr) as [H2 L2].
    apply (holds_insert _ _ TRefresh (signature_string refresh) lr {| cd_client_id := id; cd_username := u; cd_expires_at := (ev_now_refresh ev + cfg_refresh_lifespan cfg)%Z;
       cd_scope := sc; cd_redirect_uri := ""; cd_code := k; cd_used := false |}) in H2; [|done|by cbn; rewrite lookup_insert].
    eapply HK; [reflexivity|exact H2|done|].
    intros l c Hl. cbn in *. rewrite lookup_insert_ne; [rewrite lookup_insert_ne; [done|]|].
    + intros ->. congruence.
    + intros ->. rewrite lookup_insert_ne in Hlr; [congruence|]. intros ->. congruence.
  - cbn [wp]. rewrite Hc. intros la Hla.
    destruct (holds_new _ _ la {| cd_client_id := id; cd_username := u; cd_expires_at := (ev_now_access ev + cfg_access_lifespan cfg)%Z;
       cd_scope := sc; cd_redirect_uri := ""; cd_code := k; cd_used := false |} H Hla) as [H1 L1].
    apply (holds_insert _ _ TAccess (signature_string access) la {| cd_client_id := id; cd_username := u; cd_expires_at := (ev_now_access ev + cfg_access_lifespan cfg)%Z;
       cd_scope := sc; cd_redirect_uri := ""; cd_code := k; cd_used := false |}) in H1; [|done|by cbn; rewrite lookup_insert].
    eapply HK; [reflexivity|exact H1|done|].
    intros l c Hl. cbn in *. rewrite lookup_insert_ne; [done|]. intros ->. congruence.
Qed.

(** [!found || owner.Secret != password], server.go:208 and elsewhere. *)
Lemma owner_test m s u p : holds m s ->
  match me_users m !! u with None => true | Some o => negb (seqb (en_secret o) p) end = negb (owner_ok s u p).
Proof. intros H. rewrite (holds_users _ _ H). unfold owner_ok. by destruct (sv_users s !! u). Qed.

Lemma implicit_wp ev m s u p rq : holds m s ->
  wp (implicit_prog ev u p rq) m (agrees (handle_implicit ev s u p rq)).
Proof.
  intros H. unfold implicit_prog, handle_implicit. pose proof (holds_config _ _ H) as Hcfg. set (cfg := sv_config s) in *.
  cbn [wp]. rewrite Hcfg. destruct (scope_includes (cfg_allowed_scope cfg) (aq_scope rq)); cbn [negb]; [|done].
  cbn [wp]. rewrite (owner_test _ _ _ _ H). destruct (owner_ok s u p); cbn [negb]; [|done].
  apply (issue_wp _ _ s); [done| |].
  - intros s' r m' -> H' _ _. by cbn.
  - by intros ->.
Qed.

Lemma code_authorization_wp ev m s u p rq : holds m s ->
  wp (code_authorization_prog ev u p rq) m (agrees (handle_code_authorization ev s u p rq)).
Proof.
  intros H. unfold code_authorization_prog, handle_code_authorization. pose proof (holds_config _ _ H) as Hcfg. set (cfg := sv_config s) in *.
  cbn [wp]. rewrite Hcfg. destruct (scope_includes (cfg_allowed_scope cfg) (aq_scope rq)); cbn [negb]; [|done].
  cbn [wp]. rewrite (owner_test _ _ _ _ H). destruct (owner_ok s u p); cbn [negb]; [|done].
  cbn [wp]. rewrite Hcfg. destruct (cfg_must_generate cfg (ev_rand ev)) as [[code src]|]; [|done].
  cbn [wp]. rewrite Hcfg. intros l Hl. cbn [agrees]. split; [done|].
  destruct (holds_new _ _ l {| cd_client_id := aq_client_id rq; cd_username := u;
    cd_expires_at := (ev_now_code ev + cfg_code_lifespan cfg)%Z; cd_scope := aq_scope rq;
    cd_redirect_uri := aq_redirect_uri rq; cd_code := ""; cd_used := false |} H Hl) as [H1 L1].
  refine (holds_insert _ _ TCodes _ _ _ H1 L1 _). cbn. by rewrite lookup_insert.
Qed.

Lemma authorization_wp ev m s r : holds m s ->
  wp (authorization_prog ev r) m (agrees (authorization_endpoint ev s r)).
Proof.
  intros H. unfold authorization_prog, authorization_endpoint.
  destruct (parse_authorization_request r) as [req|e]; [|done].
  destruct (known_response_type (aq_response_type req)); cbn [negb]; [|done].
  cbn [wp]. rewrite (holds_clients _ _ H). destruct (sv_clients s !! aq_client_id req) as [client|]; [|done].
  destruct (seqb (en_redirect_uri client) (aq_redirect_uri req)); cbn [negb]; [|done].
  destruct (seqb (rq_method r) "GET"); [done|].
  destruct (seqb (aq_response_type req) TokenResponseType); [by apply implicit_wp|by apply code_authorization_wp].
Qed.

Lemma password_wp ev m s rq : holds m s ->
  wp (password_prog ev rq) m (agrees (handle_password ev s rq)).
Proof.
  intros H. unfold password_prog, handle_password. pose proof (holds_config _ _ H) as Hcfg. set (cfg := sv_config s) in *.
  cbn [wp]. rewrite (owner_test _ _ _ _ H). destruct (owner_ok s (tq_username rq) (tq_password rq)); cbn [negb]; [|done].
  cbn [wp]. rewrite Hcfg. destruct (scope_includes (cfg_allowed_scope cfg) (tq_scope rq)); cbn [negb]; [|done].
  apply (issue_wp _ _ s); [done| |].
  - intros s' r m' -> H' _ _. by cbn.
  - by intros ->.
Qed.

Lemma client_credentials_wp ev m s rq : holds m s ->
  wp (client_credentials_prog ev rq) m (agrees (handle_client_credentials ev s rq)).
Proof.
  intros H. unfold client_credentials_prog, handle_client_credentials. pose proof (holds_config _ _ H) as Hcfg. set (cfg := sv_config s) in *.
  cbn [wp]. rewrite (holds_clients _ _ H). destruct (sv_clients s !! tq_client_id rq) as [client|]; [|done].
  destruct (en_confidential client); cbn [negb]; [|done].
  cbn [wp]. rewrite Hcfg. destruct (scope_includes (cfg_allowed_scope cfg) (tq_scope rq)); cbn [negb]; [|done].
  apply (issue_wp _ _ s); [done| |].
  - intros s' r m' -> H' _ _. by cbn.
  - by intros ->.
Qed.

Lemma revoke_order_cons code key rest m :
  revoke_code_order code (key :: rest) m =
  revoke_code_order code rest (match m !! key with
    | Some token => if seqb (cd_code token) code then delete key m else m | None => m end).
Proof. done. Qed.
Lemma sv_set_set s t x y : sv_set_table (sv_set_table s t x) t y = sv_set_table s t y.
Proof. by destruct t. Qed.
Lemma sv_set_get s t : sv_set_table s t (sv_table s t) = s.
Proof. by destruct s, t. Qed.

Lemma revoke_loop_wp t code next Q keys : forall m s, holds m s ->
  (forall m', holds m' (sv_set_table s t (revoke_code_order code keys (sv_table s t))) -> wp next m' Q) ->
  wp (revoke_loop t code keys next) m Q.
Proof.
  induction keys as [|key rest IH]; intros m s H Hn.
  { cbn [revoke_loop]. apply Hn. cbn. by rewrite sv_set_get. }
  cbn [revoke_loop wp]. rewrite revoke_order_cons in Hn. destruct (me_table m t !! key) as [l|] eqn:E.
  - destruct (holds_some _ _ _ _ _ H E) as (c & Hc & Hs). cbn [wp]. exists c. split; [done|].
    rewrite Hs in Hn. destruct (seqb (cd_code c) code); [|by apply (IH m s)].
    cbn [wp]. apply (IH _ _ (holds_delete _ _ t key H)). intros m'. rewrite sv_set_set, sv_table_same. apply Hn.
  - rewrite (holds_none _ _ _ _ H E) in Hn. by apply (IH m s).
Qed.

Lemma revoke_order_any code keys m : Permutation keys (map fst (map_to_list m)) ->
  revoke_code_order code keys m = revoke_code code m.
Proof.
  intros Hp. apply map_eq. intros k. apply option_eq. intros c.
  pose proof (c36_any_order code keys m Hp k c) as H1. pose proof (revoke_code_without code m k c) as H2.
  tauto.
Qed.

Ltac load H := match goal with |- exists c, ?h !! ?l = Some c /\ _ => eexists; split; [exact H|] end.

Lemma code_wp ev m s rq : holds m s ->
  wp (code_prog ev rq) m (agrees (handle_code ev s rq)).
Proof.
  intros H. unfold code_prog, handle_code. pose proof (holds_config _ _ H) as Hcfg. set (cfg := sv_config s) in *.
  cbn [wp]. rewrite Hcfg. destruct (parse_token (cfg_secret cfg) (tq_code rq)) as [code|msg]; [|done].
  set (sg := signature_string code) in *. cbn [wp].
  destruct (me_table m TCodes !! sg) as [l|] eqn:E.
  2:{ pose proof (holds_none _ _ _ _ H E) as En. cbn [sv_table] in En. by rewrite En. }
  destruct (holds_some _ _ _ _ _ H E) as (c & Hc & Hs). cbn [sv_table] in Hs. rewrite Hs.
  cbn [wp]. exists c. split; [done|]. destruct (cd_used c) eqn:Eu.
  { cbn [wp]. intros ka Hka. apply (holds_keys _ _ _ _ H) in Hka.
    apply (revoke_loop_wp _ _ _ _ _ m s H). intros m1 H1. cbn [wp]. intros kr Hkr. apply (holds_keys _ _ _ _ H1) in Hkr.
    apply (revoke_loop_wp _ _ _ _ _ _ _ H1). intros m2 H2. cbn [wp agrees]. split; [done|].
    rewrite (revoke_order_any _ _ _ Hka), (revoke_order_any _ _ _ Hkr) in H2. exact H2. }
  cbn [wp]. exists c. split; [done|]. destruct (cd_expires_at c <? ev_now_check ev)%Z; [done|].
  cbn [wp]. exists c. split; [done|]. destruct (seqb (cd_client_id c) (tq_client_id rq)); cbn [negb]; [|done].
  cbn [wp]. exists c. split; [done|]. destruct (seqb (cd_redirect_uri c) (tq_redirect_uri rq)); cbn [negb]; [|done].
  cbn [wp]. exists c. split; [done|]. apply (issue_wp _ _ s); [done| |].
  - intros s' r m' -> H' Hcodes Hheap. cbn [wp]. exists c. split; [by apply Hheap|]. cbn [agrees]. split; [done|].
    refine (holds_use _ _ TCodes sg l c H' _ _); [|by apply Hheap]. cbn [me_table] in *. by rewrite Hcodes.
  - by intros ->.
Qed.

Lemma refresh_wp ev m s rq : holds m s ->
  wp (refresh_prog ev rq) m (agrees (handle_refresh ev s rq)).
Proof.
  intros H. unfold refresh_prog, handle_refresh. pose proof (holds_config _ _ H) as Hcfg. set (cfg := sv_config s) in *.
  cbn [wp]. rewrite Hcfg. destruct (parse_token (cfg_secret cfg) (tq_refresh_token rq)) as [rt|msg]; [|done].
  set (sg := signature_string rt) in *. cbn [wp].
  destruct (me_table m TRefresh !! sg) as [l|] eqn:E.
  2:{ pose proof (holds_none _ _ _ _ H E) as En. cbn [sv_table] in En. by rewrite En. }
  destruct (holds_some _ _ _ _ _ H E) as (c & Hc & Hs). cbn [sv_table] in Hs. rewrite Hs.
  cbn [wp]. exists c. split; [done|]. destruct (cd_expires_at c <? ev_now_check ev)%Z; [done|].
  cbn [wp]. exists c. split; [done|]. destruct (seqb (cd_client_id c) (tq_client_id rq)); cbn [negb]; [|done].
  cbn [wp]. exists c. split; [done|]. exists c. split; [done|].
  destruct (scope_includes (cd_scope c) _); cbn [negb]; [|done].
  cbn [wp]. exists c. split; [done|]. apply (issue_wp _ _ s); [done| |].
  - intros s' r m' -> H' _ _. cbn [wp agrees]. split; [done|]. exact (holds_delete _ _ TRefresh sg H').
  - by intros ->.
Qed.

Lemma token_wp ev m s r : holds m s ->
  wp (token_prog ev r) m (agrees (token_endpoint ev s r)).
Proof.
  intros H. unfold token_prog, token_endpoint.
  destruct (parse_token_request r) as [req|e]; [|done].
  destruct (known_grant_type (tq_grant_type req)); cbn [negb]; [|done].
  cbn [wp]. rewrite (holds_clients _ _ H). destruct (sv_clients s !! tq_client_id req) as [client|]; [|done].
  unfold client_ok. rewrite negb_involutive.
  destruct (en_confidential client && negb (seqb (en_secret client) (tq_client_secret req))); [done|].
  destruct (seqb (tq_grant_type req) PasswordGrantType); [by apply password_wp|].
  destruct (seqb (tq_grant_type req) ClientCredentialsGrantType); [by apply client_credentials_wp|].
  destruct (seqb (tq_grant_type req) AuthorizationCodeGrantType); [by apply code_wp|by apply refresh_wp].
Qed.

Lemma lookup_wp m s r K (Q : mem -> option outcome -> Prop) : holds m s ->
  (forall e, lookup_prologue s r = inr e -> Q m (Some (OError e))) ->
  (forall req token, lookup_prologue s r = inl (req, token) -> wp (K req (signature_string token)) m Q) ->
  wp (lookup_prog r K) m Q.
Proof.
  intros H HE HK. unfold lookup_prog. unfold lookup_prologue in HE, HK. pose proof (holds_config _ _ H) as Hcfg. set (cfg := sv_config s) in *.
  destruct (parse_lookup_request r) as [req|e]; [|by apply HE].
  destruct (negb (seqb (lq_token_type_hint req) "") && negb (known_token_type (lq_token_type_hint req))); [by apply HE|].
  cbn [wp]. rewrite (holds_clients _ _ H). destruct (sv_clients s !! lq_client_id req) as [client|]; [|by apply HE].
  unfold client_ok in HE, HK. rewrite negb_involutive in HE, HK.
  destruct (en_confidential client && negb (seqb (en_secret client) (lq_client_secret req))); [by apply HE|].
  cbn [wp]. rewrite Hcfg. destruct (parse_token (cfg_secret cfg) (lq_token req)) as [t|msg]; [by apply HK|by apply HE].
Qed.

(** [revokeToken] after the check its callers make. *)
Lemma revoke_wp m s id t sg k Q : holds m s ->
  (forall m', holds m' (sv_set_table s t (revoke_token id (sv_table s t) sg)) -> wp k m' Q) ->
  wp (revoke_prog id t sg k) m Q.
Proof.
  intros H Hk. unfold revoke_prog. cbn [wp]. unfold revoke_token in Hk.
  destruct (me_table m t !! sg) as [l|] eqn:E.
  - destruct (holds_some _ _ _ _ _ H E) as (c & Hc & Hs). rewrite Hs in Hk. cbn [wp]. exists c. split; [done|].
    destruct (seqb (cd_client_id c) id); cbn [negb] in *.
    + cbn [wp]. apply Hk. by apply holds_delete.
    + apply Hk. by rewrite sv_set_get.
  - rewrite (holds_none _ _ _ _ H E) in Hk. apply Hk. by rewrite sv_set_get.
Qed.

Lemma revocation_wp m s r : holds m s ->
  wp (revocation_prog r) m (agrees (revocation_endpoint s r)).
Proof.
  intros H. unfold revocation_prog, revocation_endpoint. apply (lookup_wp _ s); [done| |].
  { by intros e ->. }
  intros req token ->. set (sg := signature_string token). cbv zeta.
  assert (Hrest : forall m1 s1, holds m1 s1 ->
    wp (PLookup TRefresh sg (fun x => match x with
        | None => PRet ORevoked
        | Some l => PLoad l (fun f => if negb (seqb (cd_client_id f) (lq_client_id req))
            then PRet (OError (InvalidClient "wrong client"))
            else revoke_prog (lq_client_id req) TRefresh sg (PRet ORevoked)) end)) m1
      (agrees (match sv_refresh s1 !! sg with
          | None => Done s1 ORevoked
          | Some f => if negb (seqb (cd_client_id f) (lq_client_id req))
              then Done s1 (OError (InvalidClient "wrong client"))
              else Done (set_refresh s1 (revoke_token (lq_client_id req) (sv_refresh s1) sg)) ORevoked end))).
  { intros m1 s1 H1. cbn [wp]. destruct (me_table m1 TRefresh !! sg) as [l|] eqn:E.
    2:{ pose proof (holds_none _ _ _ _ H1 E) as En. cbn [sv_table] in En. by rewrite En. }
    destruct (holds_some _ _ _ _ _ H1 E) as (c & Hc & Hs). cbn [sv_table] in Hs. rewrite Hs.
    cbn [wp]. exists c. split; [done|]. destruct (seqb (cd_client_id c) (lq_client_id req)); cbn [negb]; [|done].
    apply (revoke_wp _ s1); [done|]. intros m' H'. cbn [wp agrees]. split; [done|exact H']. }
  cbn [wp]. destruct (me_table m TAccess !! sg) as [l|] eqn:E.
  2:{ pose proof (holds_none _ _ _ _ H E) as En. cbn [sv_table] in En. rewrite En. exact (Hrest m s H). }
  destruct (holds_some _ _ _ _ _ H E) as (c & Hc & Hs). cbn [sv_table] in Hs. rewrite Hs.
  cbn [wp]. exists c. split; [done|]. destruct (seqb (cd_client_id c) (lq_client_id req)); cbn [negb]; [|done].
  apply (revoke_wp _ s); [done|]. intros m' H'. exact (Hrest m' _ H').
Qed.

Lemma introspection_wp m s r : holds m s ->
  wp (introspection_prog r) m (agrees (introspection_endpoint s r)).
Proof.
  intros H. unfold introspection_prog, introspection_endpoint. apply (lookup_wp _ s); [done| |].
  { by intros e ->. }
  intros req token ->. set (sg := signature_string token). cbv zeta.
  assert (Hrest : forall res,
    wp (PLookup TRefresh sg (fun x => match x with
        | None => PRet (OIntro res)
        | Some l => PLoad l (fun f => if negb (seqb (cd_client_id f) (lq_client_id req))
            then PRet (OError (InvalidClient "wrong client"))
            else describe_prog l RefreshToken (fun res => PRet (OIntro res))) end)) m
      (agrees (match sv_refresh s !! sg with
          | None => Done s (OIntro res)
          | Some f => if negb (seqb (cd_client_id f) (lq_client_id req))
              then Done s (OError (InvalidClient "wrong client"))
              else Done s (OIntro (describe f RefreshToken)) end))).
  { intros res. cbn [wp]. destruct (me_table m TRefresh !! sg) as [l|] eqn:E.
    2:{ pose proof (holds_none _ _ _ _ H E) as En. cbn [sv_table] in En. by rewrite En. }
    destruct (holds_some _ _ _ _ _ H E) as (c & Hc & Hs). cbn [sv_table] in Hs. rewrite Hs.
    cbn [wp]. exists c. split; [done|]. destruct (seqb (cd_client_id c) (lq_client_id req)); cbn [negb]; [|done].
    unfold describe_prog. cbn [wp]. do 4 (exists c; split; [done|]). done. }
  cbn [wp]. destruct (me_table m TAccess !! sg) as [l|] eqn:E.
  2:{ pose proof (holds_none _ _ _ _ H E) as En. cbn [sv_table] in En. rewrite En. exact (Hrest _). }
  destruct (holds_some _ _ _ _ _ H E) as (c & Hc & Hs). cbn [sv_table] in Hs. rewrite Hs.
  cbn [wp]. exists c. split; [done|]. destruct (seqb (cd_client_id c) (lq_client_id req)); cbn [negb]; [|done].
  unfold describe_prog at 1. do 4 (cbn [wp]; exists c; split; [done|]). exact (Hrest _).
Qed.

Lemma handle_wp ev m s r : holds m s ->
  wp (handle_prog ev r) m (agrees (handle ev s r)).
Proof.
  intros H. unfold handle_prog, handle.
  destruct (seqb (last_segment (rq_path r)) "authorize"); [by apply authorization_wp|].
  destruct (seqb (last_segment (rq_path r)) "token"); [by apply token_wp|].
  destruct (seqb (last_segment (rq_path r)) "introspect"); [by apply introspection_wp|].
  destruct (seqb (last_segment (rq_path r)) "revoke"); [by apply revocation_wp|]. done.
Qed.

Lemma decision_wp now m s r required : holds m s ->
  wp (decision_prog now r required) m (fun m' x => m' = m /\
    x = match authorize_decision now s r required with AuthPanic => None | d => Some d end).
Proof.
  intros H. unfold decision_prog, authorize_decision. pose proof (holds_config _ _ H) as Hcfg. set (cfg := sv_config s) in *.
  destruct (parse_bearer_token r) as [tk|e|]; [|done|done].
  cbn [wp]. rewrite Hcfg. destruct (parse_token (cfg_secret cfg) tk) as [token|msg]; [|done].
  set (sg := signature_string token). cbn [wp]. destruct (me_table m TAccess !! sg) as [l|] eqn:E.
  2:{ pose proof (holds_none _ _ _ _ H E) as En. cbn [sv_table] in En. by rewrite En. }
  destruct (holds_some _ _ _ _ _ H E) as (c & Hc & Hs). cbn [sv_table] in Hs. rewrite Hs.
  cbn [wp]. exists c. split; [done|]. destruct (cd_expires_at c <? now)%Z; [done|].
  cbn [wp]. exists c. split; [done|]. by destruct (scope_includes (cd_scope c) required).
Qed.

(** A call run alone does what [perform] says. *)
Lemma body_wp m s c : holds m s ->
  wp (body_prog c) m (fun m' x => holds m' (fst (perform s c)) /\ x = snd (perform s c)).
Proof.
  intros H. destruct c as [ev r w|now r required w|id e|name e|t k [c|]|cfg]; cbn [body_prog].
  - cbv zeta. match goal with |- wp (if _ then PWait _ ?p else _) _ ?Q => enough (HW : wp p m Q) by (by destruct (reads_body r)) end.
    apply wp_bind. eapply wp_mono; [|apply (handle_wp ev m s r H)]. intros m' x Hx. cbn [perform]. unfold serve_http.
    destruct (handle ev s r) as [s' o|s']; cbn [agrees] in Hx; destruct Hx as [-> Hx]; [|done].
    by destruct (write_outcome w o).
  - apply wp_bind. eapply wp_mono; [|apply (decision_wp now m s r required H)]. intros m' x [-> ->]. cbn [perform]. unfold authorize.
    destruct (authorize_decision now s r required) as [|e|]; [done| |done].
    by destruct (write_bearer_error w (GErr e)) as [[w' b]|].
  - cbn [wp]. destruct H as (H1 & H2 & H3 & H4 & H5). destruct e as [e|]; (split; [|done]); unfold holds; cbn; rewrite H2.
    + split; [done|]. split; [done|]. split; [done|]. split.
      * intros t k. specialize (H4 t k). by destruct t.
      * intros t k t' k' l. specialize (H5 t k t' k' l). by destruct t, t'.
    + split; [done|]. split; [done|]. split; [done|]. split.
      * intros t k. specialize (H4 t k). by destruct t.
      * intros t k t' k' l. specialize (H5 t k t' k' l). by destruct t, t'.
  - cbn [wp]. destruct H as (H1 & H2 & H3 & H4 & H5). destruct e as [e|]; (split; [|done]); unfold holds; cbn; rewrite H3.
    + split; [done|]. split; [done|]. split; [done|]. split.
      * intros t k. specialize (H4 t k). by destruct t.
      * intros t k t' k' l. specialize (H5 t k t' k' l). by destruct t, t'.
    + split; [done|]. split; [done|]. split; [done|]. split.
      * intros t k. specialize (H4 t k). by destruct t.
      * intros t k t' k' l. specialize (H5 t k t' k' l). by destruct t, t'.
  - cbn [wp]. intros l Hl. split; [|done]. destruct (holds_new _ _ l c H Hl) as [H1 L1].
    apply (holds_insert _ _ t k l c) in H1; [|done|by cbn; rewrite lookup_insert]. destruct t; exact H1.
  - cbn [wp]. split; [|done]. apply (holds_delete _ _ t k) in H. destruct t; exact H.
  - cbn [wp]. split; [|done]. destruct H as (H1 & H2 & H3 & H4 & H5). split; [done|]. split; [done|]. split; [done|]. split.
    + intros t k. specialize (H4 t k). by destruct t.
    + intros t k t' k' l. specialize (H5 t k t' k' l). by destruct t, t'.
Qed.
