(** Proofs about requests that are sent twice. *)
From Verif.Model Require Import Server.
From Verif.Spec Require Import TokenSpec ScopeSpec WireSpec RequestSpec ServerSpec.
From Verif.Proof Require Import StrFacts UrlFacts WireFacts WireProofs ServerFacts Steps RequestParse ServerProofs GrantProofs EffectProofs.

(** Past the client check. *)
Lemma token_again ev s s' r req c : at_token s r req c -> same_registry s s' -> In (tq_grant_type req) grant_types ->
  handle ev s' r = (if seqb (tq_grant_type req) PasswordGrantType then handle_password ev s' req
          else if seqb (tq_grant_type req) ClientCredentialsGrantType then handle_client_credentials ev s' req
          else if seqb (tq_grant_type req) AuthorizationCodeGrantType then handle_code ev s' req
          else handle_refresh ev s' req).
Proof.
  intros (H1 & H2 & H3 & H4) (_ & Hc & _) Hg. rewrite handle_token by (by apply endpoint_token). unfold token_endpoint.
  rewrite H2, Hc, H3, H4. apply known_grants in Hg. by rewrite Hg.
Qed.
Ltac grant_of E := rewrite E; cbn [In grant_types]; tauto.

(** ** Refused requests *)
Lemma revoke_code_again sg m : revoke_code sg (revoke_code sg m) = revoke_code sg m.
Proof.
  apply map_eq. intros k. apply option_eq. intros c. rewrite (revoke_code_without sg (revoke_code sg m) k c).
  rewrite (revoke_code_without sg m k c). tauto.
Qed.
Lemma c81_refused : forall ev s r s' e, handle ev s r = Done s' (OError e) -> handle ev s' r = Done s' (OError e).
Proof.
  intros ev s r s' e H. pose proof H as H'. apply handled_of in H'. inversion H'; subst; try exact H.
  - match goal with Hg : tq_grant_type req = _, Hp : parse_token _ _ = inl k, Hd : sv_codes s !! _ = Some d, Hu : cd_used d = true, Ha : at_token _ _ _ _ |- _ =>
      rewrite (token_again _ s _ r req c Ha) by (done || grant_of Hg); rewrite Hg; cbn; unfold handle_code; cbn [sv_config];
      rewrite Hp; cbv zeta; cbn [sv_codes]; rewrite Hd, Hu end.
    unfold set_access, set_refresh. cbn. by rewrite !revoke_code_again.
  - match goal with Hl : at_lookup _ _ _ _ _, Hf : sv_refresh s !! _ = Some f, Hne : cd_client_id f <> _ |- _ => destruct Hl as [Hs Hp];
      rewrite handle_revoke by (by apply endpoint_revoke); unfold revocation_endpoint;
      assert (Hp' : lookup_prologue (set_access s (delete (signature_string t) (sv_access s))) r = inl (req, t)) by exact Hp;
      rewrite Hp'; cbv zeta; cbn [sv_access set_access]; rewrite lookup_delete; cbn [sv_refresh set_access]; rewrite Hf;
      by rewrite (proj2 (seqb_false _ _) Hne) end.
Qed.

(** ** Introspection *)
Lemma c81_introspection : forall ev s r s' x, handle ev s r = Done s' (OIntro x) ->
  s' = s /\ forall ev', handle ev' s' r = Done s' (OIntro x).
Proof.
  intros ev s r s' x H. pose proof H as H'. apply handled_of in H'. inversion H'; subst. split; [done|]. intros ev'.
  match goal with Hx : at_lookup _ _ _ _ _ |- _ => destruct Hx as [Hs _] end.
  rewrite handle_introspect in H |- * by (by apply endpoint_introspect). exact H.
Qed.

(** ** The refresh grant *)
Lemma c81_refresh : forall ev s r s' t, handle ev s r = Done s' (OToken t) ->
  endpoint r "token" -> body_param r "grant_type" = "refresh_token" ->
  forall ev', handle ev' s' r = Done s' (OError (InvalidGrant "unknown refresh token")).
Proof.
  intros ev s r s' t H He Hg ev'. apply handled_of in H. inversion H; subst;
    try (match goal with Hx : at_authorize _ _ _ _ |- _ => destruct Hx as [Hx _]; apply endpoint_token in He; by rewrite He in Hx end);
    match goal with Hx : at_token _ _ _ _ |- _ => pose proof Hx as Hat; apply at_token_params in Hx as (_ & Hcode & Hrt & Hgt & _) end;
    try (rewrite Hg in Hgt; by rewrite Hgt in *).
  match goal with Hx : issued_both _ _ _ _ _ _ _ _ |- _ => apply issued_both_facts in Hx as (sg & sgf & _ & _ & _ & _ & _ & ->) end.
  rewrite (token_again _ s _ r req c) by (done || (rewrite Hgt, Hg; cbn; tauto)). rewrite Hgt, Hg. cbn. unfold handle_refresh. cbn [sv_config set_refresh].
  match goal with Hx : parse_token _ (tq_refresh_token req) = inl _ |- _ => rewrite Hx end. cbv zeta. cbn [sv_refresh set_refresh].
  by rewrite lookup_delete.
Qed.

(** ** The code grant *)
Lemma c81_code : forall ev s r s' t, handle ev s r = Done s' (OToken t) ->
  endpoint r "token" -> body_param r "grant_type" = "authorization_code" ->
  forall ev', exists s'', handle ev' s' r = Done s'' (OError (InvalidGrant "unknown authorization code")) /\
    same_registry s s'' /\ sv_codes s'' = sv_codes s' /\
    (forall a, ~ access_token s'' (tr_access_token t) a) /\ (forall f, ~ refresh_token s'' (tr_refresh_token t) f) /\
    exists sg, names (server_secret s) (body_param r "code") sg /\
      without_code sg (sv_access s') (sv_access s'') /\ without_code sg (sv_refresh s') (sv_refresh s'').
Proof.
  intros ev s r s' t H He Hg ev'. apply handled_of in H. inversion H; subst;
    try (match goal with Hx : at_authorize _ _ _ _ |- _ => destruct Hx as [Hx _]; apply endpoint_token in He; by rewrite He in Hx end);
    match goal with Hx : at_token _ _ _ _ |- _ => pose proof Hx as Hat; apply at_token_params in Hx as (_ & Hcode & Hrt & Hgt & _) end;
    try (rewrite Hg in Hgt; by rewrite Hgt in *).
  match goal with Hx : issued_both _ _ _ _ _ _ _ _ |- _ => apply issued_both_facts in Hx as (sg & sgf & Hn & Hnf & _ & _ & _ & ->) end.
  rewrite (token_again _ s _ r req c) by (done || (rewrite Hgt, Hg; cbn; tauto)). rewrite Hgt, Hg. cbn. unfold handle_code. cbn [sv_config set_codes].
  match goal with Hx : parse_token _ (tq_code req) = inl _ |- _ => rewrite Hx; apply names_parsed in Hx as Hnc end. cbv zeta. cbn [sv_codes set_codes].
  rewrite lookup_insert. cbn [cd_used mark_used]. eexists. split; [reflexivity|]. cbn. split; [done|]. split; [done|].
  split; [|split].
  - intros a (sg' & Hs' & Ha). unfold server_secret in *. cbn in Hs', Ha. assert (sg' = sg) as -> by (eapply names_fun; done).
    apply revoke_code_without in Ha as [Ha Hx]. rewrite lookup_insert in Ha. injection Ha as <-. done.
  - intros a (sg' & Hs' & Ha). unfold server_secret in *. cbn in Hs', Ha. assert (sg' = sgf) as -> by (eapply names_fun; done).
    apply revoke_code_without in Ha as [Ha Hx]. rewrite lookup_insert in Ha. injection Ha as <-. done.
  - exists (signature_string k). split; [by rewrite <- Hcode|]. split; apply revoke_code_without.
Qed.

(** ** Grants that can be repeated *)
Lemma issued_both_plain ev s sc client username code s' t : issued_both ev s sc client username code s' t ->
  tr_state t = "" /\ tr_redirect_uri t = "".
Proof. intros (a & src & f & src' & _ & _ & -> & _). done. Qed.
Lemma c81_tokens : forall ev s r s' t, handle ev s r = Done s' (OToken t) ->
  ~ (endpoint r "token" /\ In (body_param r "grant_type") ["authorization_code"; "refresh_token"]) ->
  forall ev', enough_random ev' s' 2 ->
  exists s'' t', handle ev' s' r = Done s'' (OToken t') /\ tr_scope t' = tr_scope t /\ tr_state t' = tr_state t /\
    tr_redirect_uri t' = tr_redirect_uri t /\ tr_expires_in t' = tr_expires_in t /\
    (forall sg, ~ names (server_secret s) (tr_access_token t') sg -> sv_access s'' !! sg = sv_access s' !! sg) /\
    (forall sg, ~ names (server_secret s) (tr_refresh_token t') sg -> sv_refresh s'' !! sg = sv_refresh s' !! sg) /\
    sv_codes s'' = sv_codes s'.
Proof.
  intros ev s r s' t H Hno ev' Hrand. apply handled_of in H. inversion H; subst;
    try (exfalso; apply Hno; match goal with Hx : at_token _ _ _ _ |- _ => apply at_token_params in Hx as (He & Hcode & Hrt & Hgt & _) end;
         split; [done|]; rewrite <- Hgt; match goal with Hx : tq_grant_type _ = _ |- _ => rewrite Hx end; cbn; tauto).
  - match goal with Hx : at_authorize _ _ _ _ |- _ => destruct Hx as (H1' & H2' & H3' & H4' & H5') end.
    match goal with Hx : issued_access _ _ _ _ _ _ _ _ |- _ => apply issued_access_facts in Hx as (sg & Hn & Hrf & Hsc & _ & Hex & ->) end.
    rewrite handle_authorize by (by apply endpoint_authorize). unfold authorization_endpoint. rewrite H2', H3'. cbn [negb sv_clients set_access]. rewrite H4', H5', seqb_refl.
    cbn [negb]. match goal with Hx : rq_method r = "POST" |- _ => rewrite Hx end. change (seqb "POST" "GET") with false. cbv iota zeta.
    match goal with Hx : aq_response_type req = _ |- _ => rewrite Hx end. change (seqb "token" TokenResponseType) with true. cbv iota.
    unfold handle_implicit. cbn [sv_config set_access]. unfold allowed in *.
    match goal with Hx : scope_includes _ _ = true |- _ => rewrite Hx end. cbn [negb].
    match goal with Hx : owner_ok s _ _ = true |- _ => assert (Ho : forall m, owner_ok (set_access s m) (vget (post_form r) "username") (vget (post_form r) "password") = true) by (intros m; exact Hx); rewrite Ho end. cbn [negb].
    pose proof (issue_access_spec ev' (set_access s (<[sg := new_cred (aq_client_id req) (r_user r) (ev_now_access ev + cfg_access_lifespan (sv_config s)) (aq_scope req) ""]> (sv_access s))) (aq_scope req) (aq_client_id req) (r_user r) "") as HI.
    unfold r_user in HI |- *. destruct (issue_tokens ev' _ false _ _ _ _) as [[s2 t2]|].
    2:{ exfalso. assert (Hr1 : enough_random ev' (set_access s (<[sg := new_cred (aq_client_id req) (r_user r) (ev_now_access ev + cfg_access_lifespan (sv_config s)) (aq_scope req) ""]> (sv_access s))) 1) by (unfold enough_random in *; lia).
        apply enough_one in Hr1. by apply Hr1. }
    apply issued_access_facts in HI as (sg2 & Hn2 & Hrf2 & Hsc2 & _ & Hex2 & ->).
    eexists _, _. split; [reflexivity|]. cbn. split; [by rewrite Hsc2, Hsc|]. split; [done|]. split; [done|]. split; [by rewrite Hex2, Hex|].
    split; [|done]. intros sg' Hsg. rewrite lookup_insert_ne; [done|]. intros <-. by apply Hsg.
  - match goal with Hx : at_token _ _ _ _ |- _ => rename Hx into Hat end.
    match goal with Hx : issued_both _ _ _ _ _ _ _ _ |- _ => pose proof (issued_both_plain _ _ _ _ _ _ _ _ Hx) as [Hst Hru]; apply issued_both_facts in Hx as (sg & sgf & Hn & Hnf & Hsc & _ & Hex & Es) end.
    match goal with Hx : tq_grant_type req = _ |- _ => rename Hx into Hg end.
    rewrite (token_again _ s _ r req c Hat) by (subst s'; done || grant_of Hg). rewrite Hg. cbn. unfold handle_password.
    assert (Hcfg : sv_config s' = sv_config s) by (by rewrite Es).
    assert (Hown : owner_ok s' (tq_username req) (tq_password req) = true) by (rewrite Es; done). rewrite Hown. cbn [negb].
    rewrite Hcfg. unfold allowed in *. match goal with Hx : scope_includes _ _ = true |- _ => rewrite Hx end. cbn [negb].
    match goal with |- context [issue_tokens ev' s' true ?a ?b ?c ?d] => pose proof (issue_both_spec ev' s' a b c d) as HI; destruct (issue_tokens ev' s' true a b c d) as [[s2 t2]|] end.
    2:{ exfalso. apply enough_two in Hrand. apply Hrand. exact HI. }
    pose proof (issued_both_plain _ _ _ _ _ _ _ _ HI) as [Hst2 Hru2]. apply issued_both_facts in HI as (sg2 & sgf2 & Hn2 & Hnf2 & Hsc2 & _ & Hex2 & ->). unfold server_secret in *. rewrite Hcfg in *.
    eexists _, _. split; [reflexivity|]. cbn. split; [by rewrite Hsc2, Hsc|].
    split; [by rewrite Hst2, Hst|]. split; [by rewrite Hru2, Hru|]. split; [by rewrite Hex2, Hex|].
    split; [|split; [|done]]; intros sg' Hsg; (rewrite lookup_insert_ne; [done|]); intros <-; by apply Hsg.
  - match goal with Hx : at_token _ _ _ _ |- _ => rename Hx into Hat end.
    match goal with Hx : issued_both _ _ _ _ _ _ _ _ |- _ => pose proof (issued_both_plain _ _ _ _ _ _ _ _ Hx) as [Hst Hru]; apply issued_both_facts in Hx as (sg & sgf & Hn & Hnf & Hsc & _ & Hex & Es) end.
    match goal with Hx : tq_grant_type req = _ |- _ => rename Hx into Hg end.
    rewrite (token_again _ s _ r req c Hat) by (subst s'; done || grant_of Hg). rewrite Hg. cbn. unfold handle_client_credentials.
    assert (Hcfg : sv_config s' = sv_config s) by (by rewrite Es).
    assert (Hcl : sv_clients s' = sv_clients s) by (by rewrite Es). rewrite Hcl. destruct Hat as (_ & _ & Hc & _). rewrite Hc.
    match goal with Hx : en_confidential c = true |- _ => rewrite Hx end. cbn [negb].
    rewrite Hcfg. unfold allowed in *. match goal with Hx : scope_includes _ _ = true |- _ => rewrite Hx end. cbn [negb].
    match goal with |- context [issue_tokens ev' s' true ?a ?b ?c ?d] => pose proof (issue_both_spec ev' s' a b c d) as HI; destruct (issue_tokens ev' s' true a b c d) as [[s2 t2]|] end.
    2:{ exfalso. apply enough_two in Hrand. apply Hrand. exact HI. }
    pose proof (issued_both_plain _ _ _ _ _ _ _ _ HI) as [Hst2 Hru2]. apply issued_both_facts in HI as (sg2 & sgf2 & Hn2 & Hnf2 & Hsc2 & _ & Hex2 & ->). unfold server_secret in *. rewrite Hcfg in *.
    eexists _, _. split; [reflexivity|]. cbn. split; [by rewrite Hsc2, Hsc|].
    split; [by rewrite Hst2, Hst|]. split; [by rewrite Hru2, Hru|]. split; [by rewrite Hex2, Hex|].
    split; [|split; [|done]]; intros sg' Hsg; (rewrite lookup_insert_ne; [done|]); intros <-; by apply Hsg.
Qed.
Lemma c81_authorization : forall ev s r s' c, handle ev s r = Done s' (OCode c) ->
  forall ev', enough_random ev' s' 1 ->
  exists s'' c', handle ev' s' r = Done s'' (OCode c') /\ cr_state c' = cr_state c /\ cr_redirect_uri c' = cr_redirect_uri c /\
    (forall sg, ~ names (server_secret s) (cr_code c') sg -> sv_codes s'' !! sg = sv_codes s' !! sg) /\
    sv_access s'' = sv_access s' /\ sv_refresh s'' = sv_refresh s'.
Proof.
  intros ev s r s' cx H ev' Hrand. apply handled_of in H. inversion H; subst.
  match goal with Hx : at_authorize _ _ _ _ |- _ => destruct Hx as (H1' & H2' & H3' & H4' & H5') end.
  rewrite handle_authorize by (by apply endpoint_authorize). unfold authorization_endpoint. rewrite H2', H3'. cbn [negb sv_clients set_codes]. rewrite H4', H5', seqb_refl.
  cbn [negb]. match goal with Hx : rq_method r = "POST" |- _ => rewrite Hx end. change (seqb "POST" "GET") with false. cbv iota zeta.
  match goal with Hx : aq_response_type req = _ |- _ => rewrite Hx end. change (seqb "code" TokenResponseType) with false. cbv iota.
  unfold handle_code_authorization. cbn [sv_config set_codes]. unfold allowed in *.
  match goal with Hx : scope_includes _ _ = true |- _ => rewrite Hx end. cbn [negb].
  match goal with Hx : owner_ok s _ _ = true |- _ => assert (Ho : forall m, owner_ok (set_codes s m) (vget (post_form r) "username") (vget (post_form r) "password") = true) by (intros m; exact Hx); rewrite Ho end. cbn [negb].
  apply enough_one in Hrand. unfold no_key in Hrand. cbn [sv_config set_codes] in Hrand.
  destruct (cfg_must_generate (sv_config s) (ev_rand ev')) as [[k2 src2]|] eqn:E; [|done].
  eexists _, _. split; [reflexivity|]. cbn. do 2 (split; [done|]). split; [|done].
  intros sg Hsg. rewrite lookup_insert_ne; [done|]. intros <-. apply Hsg. unfold server_secret. by eapply generated_names.
Qed.
