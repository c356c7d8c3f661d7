(** What one request does to one entry of each token map. *)
From Verif.Model Require Import Server History.
From Verif.Spec Require Import TokenSpec ScopeSpec WireSpec RequestSpec ServerSpec HistorySpec.
From Verif.Proof Require Import StrFacts Base64Facts HsFacts TokenProofs UrlFacts Steps ServerFacts RequestProofs ServerProofs GrantProofs EffectProofs.

Lemma names_nonempty secret str sg : names secret str sg -> sg <> "".
Proof.
  intros (s0 & s1 & key & _ & _ & _ & H). intros ->. apply canonical_unique in H.
  pose proof (rawurl_length (hmac_sha256 secret key)) as HL. rewrite <- H in HL. rewrite hmac_length in HL. cbn in HL. lia.
Qed.

(** The answer contains no access token, refresh token, code with this signature. *)
Definition no_access (s : server) (res : result) (sg : string) : Prop :=
  forall s' t, res = Done s' (OToken t) -> ~ names (server_secret s) (tr_access_token t) sg.
Definition no_refresh (s : server) (res : result) (sg : string) : Prop :=
  forall s' t, res = Done s' (OToken t) -> ~ names (server_secret s) (tr_refresh_token t) sg.
Definition no_code (s : server) (res : result) (sg : string) : Prop :=
  forall s' c, res = Done s' (OCode c) -> ~ names (server_secret s) (cr_code c) sg.

(** Visible reasons for the disappearance of an entry. *)
Definition revoke_answer (ev : env) (s : server) (r : request) (sg : string) : Prop :=
  exists s', handle ev s r = Done s' ORevoked /\ endpoint r "revoke" /\ names (server_secret s) (body_param r "token") sg.
Definition replay_answer (ev : env) (s : server) (r : request) (k : string) : Prop :=
  exists s' e, handle ev s r = Done s' (OError e) /\ presents_code (server_secret s) r k /\
    e_name e = "invalid_grant" /\ e_description e = "unknown authorization code".
Definition half_answer (ev : env) (s : server) (r : request) (sg id : string) : Prop :=
  exists s' e, handle ev s r = Done s' (OError e) /\ endpoint r "revoke" /\ names (server_secret s) (body_param r "token") sg /\
    e_name e = "invalid_client" /\ e_description e = "wrong client" /\ acts_for r id.
Definition refresh_answered (ev : env) (s : server) (r : request) (sg : string) : Prop :=
  exists s' t, handle ev s r = Done s' (OToken t) /\ presents_refresh (server_secret s) r sg.
Definition redeem_answered (ev : env) (s : server) (r : request) (sg : string) : Prop :=
  exists s' t, handle ev s r = Done s' (OToken t) /\ presents_code (server_secret s) r sg.

(** Where the code of a token comes from. *)
Definition code_source (s : server) (r : request) (code : string) : Prop :=
  (presents_code (server_secret s) r code /\ is_Some (sv_codes s !! code)) \/
  (code = "" /\ forall k, ~ presents_code (server_secret s) r k).

Lemma acts_authorize s r req c : at_authorize s r req c -> acts_for r (aq_client_id req).
Proof.
  intros H. pose proof H as (He & _). apply at_authorize_uri in H as (_ & _ & Hc & _). left.
  split; [by apply endpoint_authorize|done].
Qed.
Lemma acts_token_for s r req c : at_token s r req c -> acts_for r (tq_client_id req).
Proof.
  intros H. apply at_token_facts in H as (He & _ & Hcc & _). right. rewrite Hcc. split; [|done].
  rewrite endpoint_authorize. intros Hx. by apply not_authorize_token in Hx.
Qed.
Lemma acts_lookup_for s r req t : at_lookup "revoke" s r req t -> acts_for r (lq_client_id req).
Proof.
  intros H. apply at_lookup_facts in H as (He & _ & Hcc & _). right. rewrite Hcc. split; [|done].
  rewrite endpoint_authorize, He. done.
Qed.
Lemma not_presents_authorize secret s r req c k : at_authorize s r req c -> ~ presents_code secret r k.
Proof. intros (He & _) (Hx & _). by apply not_authorize_token in Hx. Qed.
Lemma not_presents_grant secret s r req c k g : at_token s r req c -> tq_grant_type req = g -> g <> "authorization_code" ->
  ~ presents_code secret r k.
Proof. intros Hat Hg Hn (_ & Hx & _). apply at_token_params in Hat as (_ & _ & _ & Hgt & _). congruence. Qed.
Lemma presents_of s r req c k : at_token s r req c -> tq_grant_type req = "authorization_code" ->
  parse_token (cfg_secret (sv_config s)) (tq_code req) = inl k -> presents_code (server_secret s) r (signature_string k).
Proof.
  intros Hat Hg Hk. apply at_token_params in Hat as (He & Hc & _ & Hgt & _). split; [done|]. split; [congruence|].
  rewrite <- Hc. by apply names_parsed.
Qed.

Lemma access_effect ev s r sg :
  let s' := res_server (handle ev s r) in
  (exists t c, handle ev s r = Done s' (OToken t) /\ names (server_secret s) (tr_access_token t) sg /\
     sv_access s' !! sg = Some c /\ acts_for r (cd_client_id c) /\ cd_scope c = tr_scope t /\
     cd_expires_at c = (ev_now_access ev + cfg_access_lifespan (sv_config s))%Z /\
     code_source s r (cd_code c)) \/
  (no_access s (handle ev s r) sg /\ sv_access s' !! sg = sv_access s !! sg) \/
  (no_access s (handle ev s r) sg /\ sv_access s' !! sg = None /\ exists c, sv_access s !! sg = Some c /\
     (revoke_answer ev s r sg \/ replay_answer ev s r (cd_code c) \/ half_answer ev s r sg (cd_client_id c))).
Proof.
  intros s'. pose proof (handle_handled ev s r) as H.
  assert (Hnames : forall str a b, names (server_secret s) str a -> a <> b -> ~ names (server_secret s) str b)
    by (intros str a b Ha Hab Hb; apply Hab; by eapply names_fun).
  remember (handle ev s r) as res eqn:Hres. symmetry in Hres. subst s'. inversion H; subst res; cbn [res_server].
  - right. left. split; [by intros ??|done].
  - right. left. split; [by intros ??|done].
  - right. left. split; [by intros ??|done].
  - match goal with H : issued_access _ _ _ _ _ _ _ _ |- _ => apply issued_access_facts in H as (a & Hn & _ & Hsc & _ & _ & ->) end.
    destruct (decide (a = sg)) as [<-|Hne].
    + left. eexists _, _. split; [done|]. cbn. split; [done|]. split; [apply lookup_insert|]. cbn.
      split; [by eapply acts_authorize|]. split; [done|]. split; [done|]. right. split; [done|]. intros k. by eapply not_presents_authorize.
    + right. left. split; [intros ? ? [= <- <-]; cbn; by eapply Hnames|]. cbn. by rewrite lookup_insert_ne.
  - right. left. split; [by intros ??|done].
  - right. left. split; [by intros ??|done].
  - match goal with H : issued_both _ _ _ _ _ _ _ _ |- _ => apply issued_both_facts in H as (a & f & Hn & Hnf & Hsc & _ & _ & ->) end.
    destruct (decide (a = sg)) as [<-|Hne].
    + left. eexists _, _. split; [done|]. cbn. split; [done|]. split; [apply lookup_insert|]. cbn.
      split; [by eapply acts_token_for|]. split; [done|]. split; [done|]. right. split; [done|]. intros k. by eapply not_presents_grant.
    + right. left. split; [intros ? ? [= <- <-]; cbn; by eapply Hnames|]. cbn. by rewrite lookup_insert_ne.
  - match goal with H : issued_both _ _ _ _ _ _ _ _ |- _ => apply issued_both_facts in H as (a & f & Hn & Hnf & Hsc & _ & _ & ->) end.
    destruct (decide (a = sg)) as [<-|Hne].
    + left. eexists _, _. split; [done|]. cbn. split; [done|]. split; [apply lookup_insert|]. cbn.
      split; [by eapply acts_token_for|]. split; [done|]. split; [done|]. right. split; [done|]. intros k. by eapply not_presents_grant.
    + right. left. split; [intros ? ? [= <- <-]; cbn; by eapply Hnames|]. cbn. by rewrite lookup_insert_ne.
  - match goal with H : issued_both _ _ _ _ _ _ _ _ |- _ => apply issued_both_facts in H as (a & f & Hn & Hnf & Hsc & _ & _ & ->) end.
    destruct (decide (a = sg)) as [<-|Hne].
    + left. eexists _, _. split; [done|]. cbn. split; [done|]. split; [apply lookup_insert|]. cbn.
      split; [by eapply acts_token_for|]. split; [done|]. split; [done|]. left. split; [by eapply presents_of|by eexists].
    + right. left. split; [intros ? ? [= <- <-]; cbn; by eapply Hnames|]. cbn. by rewrite lookup_insert_ne.
  - pose proof (revoke_code_without (signature_string k) (sv_access s) sg) as Hw. cbn.
    destruct (revoke_code (signature_string k) (sv_access s) !! sg) as [c'|] eqn:E1.
    { right. left. split; [by intros ??|]. symmetry. by apply Hw. }
    destruct (sv_access s !! sg) as [c'|] eqn:E2; [|right; left; split; [by intros ??|done]].
    right. right. split; [by intros ??|]. split; [done|]. exists c'. split; [done|]. right. left.
    destruct (decide (cd_code c' = signature_string k)) as [->|Hne].
    + eexists _, _. split; [done|]. split; [by eapply presents_of|]. done.
    + exfalso. assert (None = Some c') as [=]; by apply Hw.
  - match goal with H : issued_both _ _ _ _ _ _ _ _ |- _ => apply issued_both_facts in H as (a & f & Hn & Hnf & Hsc & _ & _ & ->) end.
    destruct (decide (a = sg)) as [<-|Hne].
    + left. eexists _, _. split; [done|]. cbn. split; [done|]. split; [apply lookup_insert|]. cbn.
      split; [by eapply acts_token_for|]. split; [done|]. split; [done|]. right. split; [done|]. intros k'. by eapply not_presents_grant.
    + right. left. split; [intros ? ? [= <- <-]; cbn; by eapply Hnames|]. cbn. by rewrite lookup_insert_ne.
  - right. left. split; [by intros ??|done].
  - cbn. destruct (decide (signature_string t = sg)) as [<-|Hne].
    2:{ right. left. split; [by intros ??|]. by rewrite lookup_delete_ne. }
    destruct (sv_access s !! signature_string t) as [c'|] eqn:E2.
    2:{ right. left. split; [by intros ??|]. by rewrite lookup_delete. }
    right. right. split; [by intros ??|]. split; [by rewrite lookup_delete|]. exists c'. split; [done|]. left.
    match goal with H : at_lookup _ _ _ _ _ |- _ => apply at_lookup_facts in H as (He & _ & _ & _ & Hn) end.
    eexists. split; [done|]. split; [by apply endpoint_revoke|done].
  - cbn. destruct (decide (signature_string t = sg)) as [<-|Hne].
    2:{ right. left. split; [by intros ??|]. by rewrite lookup_delete_ne. }
    right. right. split; [by intros ??|]. split; [by rewrite lookup_delete|]. exists a. split; [done|]. right. right.
    match goal with H : cd_client_id a = _ |- _ => rewrite H end.
    match goal with H : at_lookup _ _ _ _ _ |- _ => pose proof (acts_lookup_for _ _ _ _ H) as Ha; apply at_lookup_facts in H as (He & _ & _ & _ & Hn) end.
    eexists _, _. split; [done|]. split; [by apply endpoint_revoke|done].
  - right. left. split; [by intros ??|done].
  - right. left. split; [by intros ??|done].
Qed.

Lemma refresh_effect ev s r sg :
  let s' := res_server (handle ev s r) in
  (exists t c, handle ev s r = Done s' (OToken t) /\ names (server_secret s) (tr_refresh_token t) sg /\
     ~ refresh_answered ev s r sg /\
     sv_refresh s' !! sg = Some c /\ acts_for r (cd_client_id c) /\ cd_scope c = tr_scope t /\
     cd_expires_at c = (ev_now_refresh ev + cfg_refresh_lifespan (sv_config s))%Z /\
     code_source s r (cd_code c)) \/
  (no_refresh s (handle ev s r) sg /\ sv_refresh s' !! sg = sv_refresh s !! sg) \/
  (sv_refresh s' !! sg = None /\ exists c, sv_refresh s !! sg = Some c /\
     (revoke_answer ev s r sg \/ replay_answer ev s r (cd_code c) \/ refresh_answered ev s r sg)).
Proof.
  intros s'. pose proof (handle_handled ev s r) as H.
  assert (Hnames : forall str a b, names (server_secret s) str a -> a <> b -> ~ names (server_secret s) str b)
    by (intros str a b Ha Hab Hb; apply Hab; by eapply names_fun).
  assert (Hnr : forall req c g, at_token s r req c -> tq_grant_type req = g -> g <> "refresh_token" -> ~ presents_refresh (server_secret s) r sg).
  { intros req c g Hat Hg Hng (_ & Hx & _). apply at_token_params in Hat as (_ & _ & _ & Hgt & _). congruence. }
  unfold revoke_answer, replay_answer, refresh_answered in *.
  remember (handle ev s r) as res eqn:Hres. symmetry in Hres. subst s'. inversion H; subst res; cbn [res_server].
  - right. left. split; [by intros ??|done].
  - right. left. split; [by intros ??|done].
  - right. left. split; [by intros ??|done].
  - match goal with H : issued_access _ _ _ _ _ _ _ _ |- _ => apply issued_access_facts in H as (a & Hn & Hr & Hsc & _ & _ & ->) end.
    right. left. split; [|done]. intros ? ? [= <- <-]. cbn. rewrite Hr. apply names_empty.
  - right. left. split; [by intros ??|done].
  - right. left. split; [by intros ??|done].
  - match goal with H : issued_both _ _ _ _ _ _ _ _ |- _ => apply issued_both_facts in H as (a & f & Hn & Hnf & Hsc & _ & _ & ->) end.
    destruct (decide (f = sg)) as [<-|Hne].
    + left. eexists _, _. split; [done|]. cbn. split; [done|]. split; [intros (? & ? & _ & Hx); by eapply Hnr in Hx|]. split; [apply lookup_insert|]. cbn.
      split; [by eapply acts_token_for|]. split; [done|]. split; [done|]. right. split; [done|]. intros k. by eapply not_presents_grant.
    + right. left. split; [intros ? ? [= <- <-]; cbn; by eapply Hnames|]. cbn. by rewrite lookup_insert_ne.
  - match goal with H : issued_both _ _ _ _ _ _ _ _ |- _ => apply issued_both_facts in H as (a & f & Hn & Hnf & Hsc & _ & _ & ->) end.
    destruct (decide (f = sg)) as [<-|Hne].
    + left. eexists _, _. split; [done|]. cbn. split; [done|]. split; [intros (? & ? & _ & Hx); by eapply Hnr in Hx|]. split; [apply lookup_insert|]. cbn.
      split; [by eapply acts_token_for|]. split; [done|]. split; [done|]. right. split; [done|]. intros k. by eapply not_presents_grant.
    + right. left. split; [intros ? ? [= <- <-]; cbn; by eapply Hnames|]. cbn. by rewrite lookup_insert_ne.
  - match goal with H : issued_both _ _ _ _ _ _ _ _ |- _ => apply issued_both_facts in H as (a & f & Hn & Hnf & Hsc & _ & _ & ->) end.
    destruct (decide (f = sg)) as [<-|Hne].
    + left. eexists _, _. split; [done|]. cbn. split; [done|]. split; [intros (? & ? & _ & Hx); by eapply Hnr in Hx|]. split; [apply lookup_insert|]. cbn.
      split; [by eapply acts_token_for|]. split; [done|]. split; [done|]. left. split; [by eapply presents_of|by eexists].
    + right. left. split; [intros ? ? [= <- <-]; cbn; by eapply Hnames|]. cbn. by rewrite lookup_insert_ne.
  - pose proof (revoke_code_without (signature_string k) (sv_refresh s) sg) as Hw. cbn.
    destruct (revoke_code (signature_string k) (sv_refresh s) !! sg) as [c'|] eqn:E1.
    { right. left. split; [by intros ??|]. symmetry. by apply Hw. }
    destruct (sv_refresh s !! sg) as [c'|] eqn:E2; [|right; left; split; [by intros ??|done]].
    right. right. split; [done|]. exists c'. split; [done|]. right. left.
    destruct (decide (cd_code c' = signature_string k)) as [->|Hne].
    + eexists _, _. split; [done|]. split; [by eapply presents_of|]. done.
    + exfalso. assert (None = Some c') as [=]; by apply Hw.
  - match goal with H : issued_both _ _ _ _ _ _ _ _ |- _ => apply issued_both_facts in H as (a & f & Hn & Hnf & Hsc & _ & _ & ->) end.
    match goal with H : at_token _ _ _ _ |- _ => pose proof H as Hat; apply at_token_params in H as (He & _ & Hrt & Hgt & _) end.
    assert (Hnm : names (server_secret s) (body_param r "refresh_token") (signature_string k)) by (rewrite <- Hrt; by apply names_parsed).
    destruct (decide (signature_string k = sg)) as [<-|Hks].
    { right. right. cbn. split; [apply lookup_delete|]. exists d. split; [done|]. right. right. eexists _, _.
      split; [done|]. split; [done|]. split; [congruence|done]. }
    cbn. destruct (decide (f = sg)) as [<-|Hne].
    + left. eexists _, _. split; [done|]. split; [done|].
      split; [intros (? & ? & _ & _ & _ & Hx); apply Hks; by eapply names_fun|].
      rewrite lookup_delete_ne by done. split; [apply lookup_insert|]. cbn.
      split; [by eapply acts_token_for|]. split; [done|]. split; [done|]. right. split; [done|]. intros k'. by eapply not_presents_grant.
    + right. left. split; [intros ? ? [= <- <-]; by eapply Hnames|]. by rewrite lookup_delete_ne, lookup_insert_ne.
  - right. left. split; [by intros ??|done].
  - cbn. destruct (decide (signature_string t = sg)) as [<-|Hne].
    2:{ right. left. split; [by intros ??|]. by rewrite lookup_delete_ne. }
    destruct (sv_refresh s !! signature_string t) as [c'|] eqn:E2.
    2:{ right. left. split; [by intros ??|]. by rewrite lookup_delete. }
    right. right. split; [by rewrite lookup_delete|]. exists c'. split; [done|]. left.
    match goal with H : at_lookup _ _ _ _ _ |- _ => apply at_lookup_facts in H as (He & _ & _ & _ & Hn) end.
    eexists. split; [done|]. split; [by apply endpoint_revoke|done].
  - right. left. split; [by intros ??|done].
  - right. left. split; [by intros ??|done].
  - right. left. split; [by intros ??|done].
Qed.

Lemma code_effect ev s r sg :
  let s' := res_server (handle ev s r) in
  (exists c d, handle ev s r = Done s' (OCode c) /\ names (server_secret s) (cr_code c) sg /\
     sv_codes s' !! sg = Some d /\ cd_used d = false /\ endpoint r "authorize" /\ rq_method r = "POST" /\
     cd_client_id d = form_param r "client_id" /\ cd_username d = body_param r "username" /\
     password_of s (body_param r "username") (body_param r "password") /\
     cd_scope d = parse_scope (form_param r "scope") /\ covers (cfg_allowed_scope (sv_config s)) (cd_scope d) /\
     query_unescape (form_param r "redirect_uri") = Some (cd_redirect_uri d) /\
     cd_expires_at d = (ev_now_code ev + cfg_code_lifespan (sv_config s))%Z) \/
  (no_code s (handle ev s r) sg /\ sv_codes s' !! sg = sv_codes s !! sg /\
     forall d, sv_codes s !! sg = Some d -> cd_used d = false -> ~ redeem_answered ev s r sg) \/
  (no_code s (handle ev s r) sg /\ redeem_answered ev s r sg /\
   exists d, sv_codes s !! sg = Some d /\ cd_used d = false /\ sv_codes s' !! sg = Some (as_used d)).
Proof.
  intros s'. pose proof (handle_handled ev s r) as H.
  assert (Hnr : forall req c g, at_token s r req c -> tq_grant_type req = g -> g <> "authorization_code" -> ~ presents_code (server_secret s) r sg).
  { intros req c g Hat Hg Hng (_ & Hx & _). apply at_token_params in Hat as (_ & _ & _ & Hgt & _). congruence. }
  unfold redeem_answered in *.
  remember (handle ev s r) as res eqn:Hres. symmetry in Hres. subst s'. inversion H; subst res; cbn [res_server].
  - right. left. split; [by intros ??|]. split; [done|]. by intros ? _ _ (? & ? & ? & _).
  - right. left. split; [by intros ??|]. split; [done|]. by intros ? _ _ (? & ? & ? & _).
  - right. left. split; [by intros ??|]. split; [done|]. by intros ? _ _ (? & ? & ? & _).
  - right. left. split; [by intros ??|].
    match goal with H : issued_access _ _ _ _ _ _ _ _ |- _ => apply issued_access_facts in H as (a & Hn & _ & Hsc & _ & _ & ->) end.
    split; [done|]. intros ? _ _ (? & ? & _ & Hx). by eapply not_presents_authorize in Hx.
  - destruct (decide (signature_string k = sg)) as [<-|Hne].
    + left. eexists _, _. split; [done|]. split; [by eapply generated_names|]. cbn. split; [apply lookup_insert|].
      match goal with H : at_authorize _ _ _ _ |- _ => pose proof H as (He & _); apply at_authorize_uri in H as (_ & _ & Hc & Hu & _ & _ & Hsc) end.
      cbn. rewrite r_user_param. split; [done|]. split; [by apply endpoint_authorize|]. split; [done|]. split; [done|]. split; [done|].
      split; [apply password_spec; by rewrite <- r_user_param, <- r_password_param|]. split; [done|]. split; [by apply covers_spec|]. done.
    + right. left. split; [intros ? ? [= <- <-]; cbn; intros Hx; apply Hne; eapply names_fun; [by eapply generated_names|done]|].
      cbn. split; [by rewrite lookup_insert_ne|]. by intros ? _ _ (? & ? & ? & _).
  - right. left. split; [by intros ??|]. split; [done|]. by intros ? _ _ (? & ? & ? & _).
  - right. left. split; [by intros ??|].
    match goal with H : issued_both _ _ _ _ _ _ _ _ |- _ => apply issued_both_facts in H as (a & f & Hn & Hnf & Hsc & _ & _ & ->) end.
    split; [done|]. intros ? _ _ (? & ? & _ & Hx). by eapply Hnr in Hx.
  - right. left. split; [by intros ??|].
    match goal with H : issued_both _ _ _ _ _ _ _ _ |- _ => apply issued_both_facts in H as (a & f & Hn & Hnf & Hsc & _ & _ & ->) end.
    split; [done|]. intros ? _ _ (? & ? & _ & Hx). by eapply Hnr in Hx.
  - match goal with H : issued_both _ _ _ _ _ _ _ _ |- _ => apply issued_both_facts in H as (a & f & Hn & Hnf & Hsc & _ & _ & ->) end.
    assert (Hp : presents_code (server_secret s) r (signature_string k)) by (by eapply presents_of).
    destruct (decide (signature_string k = sg)) as [<-|Hne].
    + right. right. split; [by intros ??|]. split; [eauto|]. exists d. split; [done|]. split; [done|]. cbn. apply lookup_insert.
    + right. left. split; [by intros ??|]. cbn. split; [by rewrite lookup_insert_ne|]. intros ? _ _ (? & ? & _ & _ & _ & Hx).
      apply Hne. destruct Hp as (_ & _ & Hp). by eapply names_fun.
  - right. left. split; [by intros ??|]. split; [done|]. by intros ? _ _ (? & ? & ? & _).
  - right. left. split; [by intros ??|].
    match goal with H : issued_both _ _ _ _ _ _ _ _ |- _ => apply issued_both_facts in H as (a & f & Hn & Hnf & Hsc & _ & _ & ->) end.
    split; [done|]. intros ? _ _ (? & ? & _ & Hx). by eapply Hnr in Hx.
  - right. left. split; [by intros ??|]. split; [done|]. by intros ? _ _ (? & ? & ? & _).
  - right. left. split; [by intros ??|]. split; [done|]. by intros ? _ _ (? & ? & ? & _).
  - right. left. split; [by intros ??|]. split; [done|]. by intros ? _ _ (? & ? & ? & _).
  - right. left. split; [by intros ??|]. split; [done|]. by intros ? _ _ (? & ? & ? & _).
  - right. left. split; [by intros ??|]. split; [done|]. by intros ? _ _ (? & ? & ? & _).
Qed.

(** Conversely: the visible reasons really remove the entry. *)
Lemma revoke_removes ev s r sg : revoke_answer ev s r sg ->
  sv_access (res_server (handle ev s r)) !! sg = None /\ sv_refresh (res_server (handle ev s r)) !! sg = None.
Proof.
  intros (s' & H & He & Hn). rewrite H. cbn. apply handled_of in H. inversion H; subst. cbn.
  match goal with H : at_lookup _ _ _ _ _ |- _ => apply at_lookup_facts in H as (_ & _ & _ & _ & Hn') end.
  rewrite (names_fun _ _ _ _ Hn Hn'). split; apply lookup_delete.
Qed.
Lemma unknown_code_replay ev s r k : replay_answer ev s r k -> is_Some (sv_codes s !! k) ->
  without_code k (sv_access s) (sv_access (res_server (handle ev s r))) /\
  without_code k (sv_refresh s) (sv_refresh (res_server (handle ev s r))).
Proof.
  intros (s' & e & H & (He & Hg & Hn) & Hen & Hed) [d Hd]. rewrite H. cbn.
  rewrite handle_token in H by done. unfold token_endpoint in H.
  destruct (parse_token_request r) as [q|e0] eqn:Hq.
  2:{ injection H as <- <-. exfalso. unfold parse_token_request in Hq. split_match Hq; by injection Hq as <-. }
  pose proof (parse_token_inl r q Hq) as (_ & _ & Hgt & _ & _ & _ & Hcode & _). rewrite Hgt, Hg in H.
  change (known_grant_type "authorization_code") with true in H. cbn [negb] in H.
  destruct (sv_clients s !! tq_client_id q) as [c|]; [|by injection H as <- <-].
  destruct (client_ok c (tq_client_secret q)); cbn [negb] in H; [|by injection H as <- <-].
  change (seqb "authorization_code" PasswordGrantType) with false in H.
  change (seqb "authorization_code" ClientCredentialsGrantType) with false in H.
  change (seqb "authorization_code" AuthorizationCodeGrantType) with true in H. cbv iota in H.
  unfold handle_code in H. rewrite Hcode in H. apply names_spec in Hn as (t & Ht & ->). unfold server_secret in Ht. rewrite Ht in H.
  cbv zeta in H. rewrite Hd in H. destruct (cd_used d).
  - injection H as <- <-. cbn. split; apply revoke_code_without.
  - exfalso. split_match H; first [discriminate H|injection H as _ <-; discriminate Hed].
Qed.
Lemma half_removes ev s r sg a : half_answer ev s r sg (cd_client_id a) -> sv_access s !! sg = Some a ->
  sv_access (res_server (handle ev s r)) !! sg = None.
Proof.
  intros (s' & e & H & He & Hn & Hen & Hed & Ha) Hsg. rewrite H. cbn.
  rewrite handle_revoke in H by done. unfold revocation_endpoint in H.
  destruct (lookup_prologue s r) as [[q t]|e0] eqn:Hp.
  2:{ injection H as <- <-. exfalso. unfold lookup_prologue in Hp.
      destruct (parse_lookup_request r) as [q|e1] eqn:Hq.
      - split_match Hp; injection Hp as <-; first [discriminate Hed|discriminate Hen].
      - injection Hp as <-. unfold parse_lookup_request in Hq. split_match Hq; by injection Hq as <-. }
  assert (Hat : at_lookup "revoke" s r q t) by (split; [by apply endpoint_revoke|done]).
  assert (Hid : lq_client_id q = cd_client_id a) by (eapply acts_lookup; [|exact Hat|exact Ha]; discriminate).
  apply at_lookup_facts in Hat as (_ & _ & _ & _ & Hn'). rewrite (names_fun _ _ _ _ Hn Hn') in Hsg |- *.
  cbv zeta in H. rewrite Hsg, Hid, seqb_refl in H. cbn [negb] in H. unfold revoke_token in H. rewrite Hsg, seqb_refl in H. cbn [negb] in H.
  split_match H; first [discriminate H|injection H as <- _; apply lookup_delete].
Qed.
Lemma refreshed_removes ev s r sg : refresh_answered ev s r sg -> sv_refresh (res_server (handle ev s r)) !! sg = None.
Proof.
  intros (s' & t & H & He & Hg & Hn). rewrite H. cbn.
  destruct (c32_refresh ev s r s' t H He Hg) as (d & _ & _ & _ & _ & _ & _ & _ & _ & _ & Hgone).
  destruct (sv_refresh s' !! sg) as [f|] eqn:E; [|done]. exfalso. apply (Hgone f). exists sg. split; [|done].
  assert (sv_config s' = sv_config s) as Hc.
  { destruct (c58_frame ev s r s' _ H) as ((Hx & _) & _); [left; eauto|done]. }
  unfold server_secret. by rewrite Hc.
Qed.
