(** Proofs about revocation, introspection, routing and the success of grants. *)
From Verif.Model Require Import Server.
From Verif.Spec Require Import TokenSpec ScopeSpec WireSpec RequestSpec ServerSpec.
From Verif.Proof Require Import StrFacts Base64Facts HsFacts TokenProofs UrlFacts UrlParse JsonFacts ScopeFacts
  ScopeProofs WireFacts WireProofs Redirect ServerFacts Steps RequestProofs RequestParse ServerProofs GrantProofs.

(** A complete lookup request past the client check. *)
Lemma prologue_past_client s r id sg : complete_lookup_request r -> from_client s r id ->
  names (server_secret s) (body_param r "token") sg ->
  exists q t, lookup_prologue s r = inl (q, t) /\ lq_client_id q = id /\ signature_string t = sg.
Proof.
  intros ((q & Hq) & Hh) Hf Hn. unfold parse_introspection_request in Hq. pose proof (parse_lookup_inl r q Hq) as (_ & _ & Hcc & Htok & Hhint & _).
  apply names_spec in Hn as (t & Ht & ->). exists q, t. unfold lookup_prologue. rewrite Hq, Hhint, Htok.
  apply known_hints in Hh. rewrite Hh. unfold server_secret in Ht. rewrite Ht.
  destruct (lookup_client s r q Hq) as [(c & Hf' & Hc & Ho)|(Hu & _)]; [|by apply Hu in Hf].
  rewrite Hc, Ho. cbn [negb]. split; [done|]. split; [|done]. eapply from_client_fun; done.
Qed.

(** ** C46 *)
Lemma c46_own : forall ev s r id sg, complete_revocation r -> from_client s r id ->
  names (server_secret s) (body_param r "token") sg ->
  (forall a, sv_access s !! sg = Some a -> cd_client_id a = id) ->
  (forall f, sv_refresh s !! sg = Some f -> cd_client_id f = id) ->
  exists s', handle ev s r = Done s' ORevoked /\ same_registry s s' /\ sv_codes s' = sv_codes s /\
    sv_access s' = delete sg (sv_access s) /\ sv_refresh s' = delete sg (sv_refresh s).
Proof.
  intros ev s r id sg (He & Hc) Hf Hn Ha Hr. destruct (prologue_past_client s r id sg Hc Hf Hn) as (q & t & Hp & <- & <-).
  rewrite handle_revoke by done. pose proof (revocation_handled ev s r (proj1 (endpoint_revoke r) He)) as H.
  unfold revocation_endpoint in *. rewrite Hp in *. cbv zeta in *.
  destruct (sv_access s !! signature_string t) as [a|] eqn:Ea.
  - rewrite (Ha a) by done. rewrite seqb_refl. cbn [negb]. rewrite (revoke_token_owner _ _ _ a) by auto. cbn [sv_refresh set_access].
    destruct (sv_refresh s !! signature_string t) as [f|] eqn:Ef.
    + rewrite (Hr f) by done. rewrite seqb_refl. cbn [negb]. rewrite (revoke_token_owner _ _ _ f) by auto.
      eexists. split; [reflexivity|]. done.
    + eexists. split; [reflexivity|]. cbn. by rewrite (delete_notin (sv_refresh s)).
  - destruct (sv_refresh s !! signature_string t) as [f|] eqn:Ef.
    + rewrite (Hr f) by done. rewrite seqb_refl. cbn [negb]. rewrite (revoke_token_owner _ _ _ f) by auto.
      eexists. split; [reflexivity|]. cbn. by rewrite (delete_notin (sv_access s)).
    + eexists. split; [reflexivity|]. cbn. by rewrite !delete_notin.
Qed.
Lemma c46_only : forall ev s r k c, endpoint r "revoke" ->
  let s' := res_server (handle ev s r) in
  same_registry s s' /\ sv_codes s' = sv_codes s /\
  (forall x, sv_access s' !! k = Some x -> sv_access s !! k = Some x) /\
  (forall x, sv_refresh s' !! k = Some x -> sv_refresh s !! k = Some x) /\
  (sv_access s !! k = Some c -> sv_access s' !! k = None ->
     names (server_secret s) (body_param r "token") k /\ from_client s r (cd_client_id c)) /\
  (sv_refresh s !! k = Some c -> sv_refresh s' !! k = None ->
     names (server_secret s) (body_param r "token") k /\ from_client s r (cd_client_id c)).
Proof.
  intros ev s r k c He s'. unfold s'. clear s'. apply endpoint_revoke in He.
  assert (H : handled ev s r (handle ev s r)) by apply handle_handled.
  destruct H; cbn [res_server];
   try (match goal with H : at_authorize _ _ _ _ |- _ => destruct H as (Hx & _); congruence end);
   try (match goal with H : at_token _ _ _ _ |- _ => destruct H as (Hx & _); congruence end);
   try (split_and!; [done|done|done|done|congruence|congruence]).
  - match goal with H : at_lookup _ _ _ _ _ |- _ => apply at_lookup_facts in H as (_ & _ & Hcc & Hau & Hn) end. cbn.
    split; [done|]. split; [done|]. split; [intros x Hx; by apply lookup_delete_Some in Hx as [_ Hx]|].
    split; [intros x Hx; by apply lookup_delete_Some in Hx as [_ Hx]|].
    split; intros Hk Hd; (destruct (decide (signature_string t = k)) as [<-|Hne]; [|rewrite lookup_delete_ne in Hd by done; congruence]);
      (split; [done|]);
      match goal with H : forall x, _ !! _ = Some x -> _ |- _ => apply H in Hk; rewrite Hk; by eexists end.
  - match goal with H : at_lookup _ _ _ _ _ |- _ => apply at_lookup_facts in H as (_ & _ & Hcc & Hau & Hn) end. cbn.
    split; [done|]. split; [done|]. split; [intros x Hx; by apply lookup_delete_Some in Hx as [_ Hx]|].
    split; [done|]. split; [|congruence].
    intros Hk Hd. destruct (decide (signature_string t = k)) as [<-|Hne]; [|rewrite lookup_delete_ne in Hd by done; congruence].
    split; [done|]. assert (c = a) as -> by congruence. match goal with H : cd_client_id a = _ |- _ => rewrite H end. by eexists.
Qed.
Lemma from_client_registry s s' r id : sv_clients s' = sv_clients s -> from_client s r id -> from_client s' r id.
Proof. intros H (secret & H1 & H2). exists secret. split; [done|]. unfold authenticates. by rewrite H. Qed.
Lemma c46_again : forall ev ev' s r s', handle ev s r = Done s' ORevoked -> handle ev' s' r = Done s' ORevoked.
Proof.
  intros ev ev' s r s' H. pose proof H as H0. apply handled_of in H. inversion H; subst; clear H.
  match goal with H : at_lookup _ _ _ _ _ |- _ => destruct H as (He & Hp) end.
  rewrite handle_revoke by (by apply endpoint_revoke). unfold revocation_endpoint.
  match goal with |- context [lookup_prologue ?x r] => assert (lookup_prologue x r = inl (req, t)) as -> by exact Hp end.
  cbv zeta. cbn [sv_access sv_refresh]. rewrite lookup_delete. cbn [sv_access sv_refresh]. by rewrite lookup_delete.
Qed.
Lemma c46_unknown : forall ev s r id sg, complete_revocation r -> from_client s r id ->
  names (server_secret s) (body_param r "token") sg -> sv_access s !! sg = None -> sv_refresh s !! sg = None ->
  handle ev s r = Done s ORevoked.
Proof.
  intros ev s r id sg (He & Hc) Hf Hn Ha Hr. destruct (prologue_past_client s r id sg Hc Hf Hn) as (q & t & Hp & <- & <-).
  rewrite handle_revoke by done. unfold revocation_endpoint. rewrite Hp. cbv zeta. rewrite Ha. by rewrite Hr.
Qed.
Lemma revoked_wire : forall ev s r s', handle ev s r = Done s' ORevoked ->
  exists w, serve_http ev s r new_rw = (s', Some w) /\ status w = 200%Z /\ rw_body w = "".
Proof. intros ev s r s' H. unfold serve_http. rewrite H. eexists. split; [reflexivity|]. done. Qed.

(** ** C47 *)
Lemma describe_reports c kind : reports (describe c kind) kind c.
Proof.
  unfold reports, describe. cbn. split_and!; try done; unfold second;
    pose proof (Z.div_mod (cd_expires_at c) 1000000000); pose proof (Z.mod_pos_bound (cd_expires_at c) 1000000000); lia.
Qed.
Lemma c47_answer : forall ev s r id sg, complete_introspection r -> from_client s r id ->
  names (server_secret s) (body_param r "token") sg ->
  (sv_access s !! sg = None -> sv_refresh s !! sg = None ->
     exists x, handle ev s r = Done s (OIntro x) /\ reports_nothing x) /\
  (forall a, sv_access s !! sg = Some a -> sv_refresh s !! sg = None -> cd_client_id a = id ->
     exists x, handle ev s r = Done s (OIntro x) /\ reports x "access_token" a) /\
  (forall f, sv_refresh s !! sg = Some f -> cd_client_id f = id ->
     (forall a, sv_access s !! sg = Some a -> cd_client_id a = id) ->
     exists x, handle ev s r = Done s (OIntro x) /\ reports x "refresh_token" f) /\
  (forall c, (sv_access s !! sg = Some c \/ sv_refresh s !! sg = Some c) -> cd_client_id c <> id ->
     handle ev s r = Done s (OError (InvalidClient "wrong client"))).
Proof.
  intros ev s r id sg (He & Hc) Hf Hn. destruct (prologue_past_client s r id sg Hc Hf Hn) as (q & t & Hp & <- & <-).
  rewrite handle_introspect by done. unfold introspection_endpoint. rewrite Hp. cbv zeta.
  split; [|split; [|split]].
  - intros -> ->. eexists. split; [done|]. done.
  - intros a -> -> ->. rewrite seqb_refl. cbn [negb]. eexists. split; [done|]. apply describe_reports.
  - intros f -> Hcf Ha. rewrite Hcf, seqb_refl. destruct (sv_access s !! signature_string t) as [a|].
    + rewrite (Ha a), seqb_refl by done. cbn [negb]. eexists. split; [done|]. apply describe_reports.
    + cbn [negb]. eexists. split; [done|]. apply describe_reports.
  - intros c Hc' Hne. apply seqb_false in Hne. destruct Hc' as [->| ->].
    + by rewrite Hne.
    + rewrite Hne. cbn [negb]. destruct (sv_access s !! signature_string t) as [a|]; [|done].
      by destruct (negb (seqb (cd_client_id a) (lq_client_id q))).
Qed.
Lemma c47_discloses : forall ev s r s' x, handle ev s r = Done s' (OIntro x) ->
  reports_nothing x \/
  exists c kind, from_client s r (cd_client_id c) /\ reports x kind c /\
    ((kind = "access_token" /\ access_token s (body_param r "token") c) \/
     (kind = "refresh_token" /\ refresh_token s (body_param r "token") c)).
Proof.
  intros ev s r s' x H. apply handled_of in H. inversion H; subst.
  match goal with H : at_lookup _ _ _ _ _ |- _ => apply at_lookup_facts in H as (He & _ & Hcc & Hau & Hn) end.
  destruct (sv_refresh s' !! signature_string t) as [f|] eqn:Ef.
  - right. exists f, "refresh_token".
    match goal with H : forall f, Some _ = Some f -> _ |- _ => rewrite (H f) by done end.
    split; [by eexists|]. split; [apply describe_reports|]. right. split; [done|]. by eexists.
  - destruct (sv_access s' !! signature_string t) as [a|] eqn:Ea.
    + right. exists a, "access_token".
      match goal with H : forall a, Some _ = Some a -> _ |- _ => rewrite (H a) by done end.
      split; [by eexists|]. split; [apply describe_reports|]. left. split; [done|]. by eexists.
    + by left.
Qed.

(** ** C48 *)
Lemma c48_active : forall ev s r s' x now r' required w,
  handle ev s r = Done s' (OIntro x) -> ir_active x = true -> ir_token_type x = "access_token" ->
  (now <= ir_expires_at x * 1000000000)%Z -> bearer r' (body_param r "token") -> covers (ir_scope x) required -> unsent w ->
  authorize now s r' required w = Some (true, w).
Proof.
  intros ev s r s' x now r' required w H Ha Hk Hn Hb Hc Hw. apply c47_discloses in H as [->|(c & kind & _ & Hr & Hc')]; [done|].
  destruct Hr as (_ & Hk' & Hsc & _ & _ & Hx & _). rewrite Hk in Hk'. subst kind.
  destruct Hc' as [[_ Hc']|[Hd _]]; [|done]. apply granted_spec; [done|]. exists (body_param r "token"), c.
  split; [done|]. split; [done|]. split; [lia|]. by rewrite <- Hsc.
Qed.

Lemma bearer_fun r a b : bearer r a -> bearer r b -> a = b.
Proof. intros Ha Hb. apply bearer_spec in Ha, Hb. congruence. Qed.
Lemma c48_exact : forall ev s r s' x,
  handle ev s r = Done s' (OIntro x) -> ir_active x = true -> ir_token_type x = "access_token" ->
  exists expires, (ir_expires_at x * 1000000000 <= expires < (ir_expires_at x + 1) * 1000000000)%Z /\
    forall now r' required w, bearer r' (body_param r "token") -> covers (ir_scope x) required -> unsent w ->
    (authorize now s r' required w = Some (true, w) <-> (now <= expires)%Z).
Proof.
  intros ev s r s' x H Ha Hk. apply c47_discloses in H as [->|(c & kind & _ & Hr & Hc')]; [done|].
  destruct Hr as (_ & Hk' & Hsc & _ & _ & Hx & _). rewrite Hk in Hk'. subst kind.
  destruct Hc' as [[_ Hc']|[Hd _]]; [|done].
  exists (cd_expires_at c). split; [done|]. intros now r' required w Hb Hc Hw. split.
  - intros HA. destruct (proj1 (c27_granted now s r' required w) (ex_intro _ _ HA)) as (str & c2 & Hb2 & Ha2 & Hn2 & _).
    rewrite <- (bearer_fun _ _ _ Hb Hb2) in Ha2.
    destruct Hc' as (sg & N1 & L1), Ha2 as (sg2 & N2 & L2). rewrite (names_fun _ _ _ _ N1 N2) in L1. congruence.
  - intros Hn. apply granted_spec; [done|]. exists (body_param r "token"), c.
    split; [done|]. split; [done|]. split; [done|]. by rewrite <- Hsc.
Qed.

(** ** C51 *)
Lemma c51_client_state : forall ev1 ev2 s1 s2 r w,
  endpoint r "token" \/ endpoint r "introspect" \/ endpoint r "revoke" ->
  unauthenticated s1 r -> unauthenticated s2 r -> snd (serve_http ev1 s1 r w) = snd (serve_http ev2 s2 r w).
Proof.
  assert (HL : forall s r, unauthenticated s r -> lookup_prologue s r =
    match parse_lookup_request r with
    | inr e => inr e
    | inl req => if negb (seqb (lq_token_type_hint req) "") && negb (known_token_type (lq_token_type_hint req))
                 then inr (UnsupportedTokenType "") else inr (InvalidClient "unknown client")
    end).
  { intros s r Hu. unfold lookup_prologue. destruct (parse_lookup_request r) as [q|] eqn:Hq; [|done].
    destruct (_ && _); [done|]. destruct (lookup_client s r q Hq) as [(c & Hf & _)|(_ & Hc)]; [by apply Hu in Hf|].
    destruct (sv_clients s !! lq_client_id q); [|done]. by rewrite Hc. }
  intros ev1 ev2 s1 s2 r w He H1 H2. destruct He as [He|[He|He]]; unfold serve_http.
  - rewrite !handle_token by done. unfold token_endpoint. destruct (parse_token_request r) as [q|] eqn:Hq; [|done].
    destruct (negb (known_grant_type _)); [done|].
    destruct (token_client s1 r q Hq) as [(c & Hf & _)|(_ & Hc1)]; [by apply H1 in Hf|].
    destruct (token_client s2 r q Hq) as [(c & Hf & _)|(_ & Hc2)]; [by apply H2 in Hf|].
    destruct (sv_clients s1 !! tq_client_id q); [rewrite Hc1|]; (destruct (sv_clients s2 !! tq_client_id q); [rewrite Hc2|]); done.
  - rewrite !handle_introspect by done. unfold introspection_endpoint. rewrite !HL by done.
    destruct (parse_lookup_request r) as [q|]; [|done]. by destruct (_ && _).
  - rewrite !handle_revoke by done. unfold revocation_endpoint. rewrite !HL by done.
    destruct (parse_lookup_request r) as [q|]; [|done]. by destruct (_ && _).
Qed.
Lemma c51_clients : forall ev1 ev2 s1 s2 r1 r2 w,
  complete_token_request r1 \/ complete_introspection r1 \/ complete_revocation r1 ->
  complete_token_request r2 \/ complete_introspection r2 \/ complete_revocation r2 ->
  unauthenticated s1 r1 -> unauthenticated s2 r2 ->
  snd (serve_http ev1 s1 r1 w) = snd (serve_http ev2 s2 r2 w).
Proof. intros ev1 ev2 s1 s2 r1 r2 w H1 H2 U1 U2. unfold serve_http. by rewrite !unauthenticated_answer. Qed.

Lemma wrong_password_answer ev s r id : complete_token_request r -> from_client s r id ->
  body_param r "grant_type" = "password" -> ~ password_of s (body_param r "username") (body_param r "password") ->
  handle ev s r = Done s (OError (AccessDenied "")).
Proof.
  intros Hc Hf Hg Hp. destruct (token_past_client ev s r id Hc Hf) as (q & c & Hq & _ & _ & _ & ->).
  apply parse_token_inl in Hq as (_ & _ & Hgt & Hu & Hpw & _). rewrite Hgt, Hg. cbn. unfold handle_password. rewrite Hu, Hpw.
  rewrite password_spec in Hp. apply not_true_is_false in Hp. by rewrite Hp.
Qed.
Lemma c51_passwords : forall ev1 ev2 s1 s2 r1 r2 id1 id2 w,
  complete_token_request r1 -> complete_token_request r2 -> from_client s1 r1 id1 -> from_client s2 r2 id2 ->
  body_param r1 "grant_type" = "password" -> body_param r2 "grant_type" = "password" ->
  ~ password_of s1 (body_param r1 "username") (body_param r1 "password") ->
  ~ password_of s2 (body_param r2 "username") (body_param r2 "password") ->
  snd (serve_http ev1 s1 r1 w) = snd (serve_http ev2 s2 r2 w).
Proof.
  intros ev1 ev2 s1 s2 r1 r2 id1 id2 w C1 C2 F1 F2 G1 G2 P1 P2. unfold serve_http.
  rewrite (wrong_password_answer ev1 s1 r1 id1), (wrong_password_answer ev2 s2 r2 id2) by done. done.
Qed.
Lemma c51_authorization : forall ev1 ev2 s1 s2 r1 r2 w,
  endpoint r1 "authorize" -> endpoint r2 "authorize" -> rq_method r1 = rq_method r2 ->
  parse_authorization_request r1 = parse_authorization_request r2 ->
  sv_config s1 = sv_config s2 -> sv_clients s1 = sv_clients s2 ->
  ~ password_of s1 (body_param r1 "username") (body_param r1 "password") ->
  ~ password_of s2 (body_param r2 "username") (body_param r2 "password") ->
  snd (serve_http ev1 s1 r1 w) = snd (serve_http ev2 s2 r2 w).
Proof.
  intros ev1 ev2 s1 s2 r1 r2 w E1 E2 Hm Hp Hc Hcl P1 P2. rewrite password_spec in P1, P2. apply not_true_is_false in P1, P2.
  unfold serve_http. rewrite !handle_authorize by done. unfold authorization_endpoint. rewrite Hp, Hm, Hcl.
  destruct (parse_authorization_request r2) as [q|] eqn:Eq; [|done].
  destruct (negb (known_response_type _)); [done|]. destruct (sv_clients s2 !! aq_client_id q) as [c|]; [|done].
  destruct (negb _); [done|]. destruct (seqb (rq_method r2) "GET"); [done|]. cbv zeta.
  assert (Hb : forall r k, vget (post_form r) k = body_param r k).
  { intros r k. unfold post_form, body_param. destruct (parse_form r); [done|]. vm_compute. done. }
  rewrite !Hb. unfold handle_implicit, handle_code_authorization. rewrite Hc, P1, P2. cbn [negb].
  destruct (seqb (aq_response_type q) TokenResponseType); by destruct (negb _).
Qed.

(** ** C52 *)
Lemma c52_path : forall ev s r p w,
  (forall name, In name ["authorize"; "token"; "introspect"; "revoke"] -> endpoint r name <-> endpoint (with_path r p) name) ->
  serve_http ev s (with_path r p) w = serve_http ev s r w.
Proof.
  intros ev s r p w H.
  assert (HP : forall n, In n ["authorize"; "token"; "introspect"; "revoke"] ->
     seqb (last_segment p) n = seqb (last_segment (rq_path r)) n).
  { intros n Hn. pose proof (H n Hn) as Hi. rewrite !endpoint_spec in Hi; [|by repeat (destruct Hn as [<-|Hn]; [done|])..].
    cbn [rq_path with_path] in Hi. destruct (seqb (last_segment p) n) eqn:E1, (seqb (last_segment (rq_path r)) n) eqn:E2; try done.
    - apply seqb_true in E1. apply seqb_false in E2. by apply Hi in E1.
    - apply seqb_true in E2. apply seqb_false in E1. by apply Hi in E2. }
  unfold serve_http. assert (handle ev s (with_path r p) = handle ev s r) as ->; [|done].
  unfold handle. cbv zeta. cbn [rq_path with_path]. rewrite !HP by (cbn; tauto). done.
Qed.
Lemma c52_dispatch : forall ev s r,
  (endpoint r "authorize" -> handle ev s r = authorization_endpoint ev s r) /\
  (endpoint r "token" -> handle ev s r = token_endpoint ev s r) /\
  (endpoint r "introspect" -> handle ev s r = introspection_endpoint s r) /\
  (endpoint r "revoke" -> handle ev s r = revocation_endpoint s r).
Proof.
  intros ev s r. split_and!; [apply handle_authorize|apply handle_token|apply handle_introspect|apply handle_revoke].
Qed.
Lemma c52_not_found : forall ev s r, other_path r ->
  exists w, serve_http ev s r new_rw = (s, Some w) /\ status w = 404%Z.
Proof. intros ev s r H. unfold serve_http. rewrite handle_other by done. eexists. split; [reflexivity|]. done. Qed.

(** ** C54 *)
Lemma c54_answer : forall ev s r,
  (exists s' w code h, serve_http ev s r new_rw = (s', Some w) /\ rw_sent w = Some (code, h) /\
     In code [200; 303; 400; 401; 403; 404]%Z) \/
  (serve_http ev s r new_rw = (s, None) /\
    (cfg_key_length (sv_config s) < 0 \/ Z.of_nat (String.length (ev_rand ev)) < 2 * cfg_key_length (sv_config s))%Z).
Proof.
  intros ev s r. destruct (handle ev s r) as [s' o|s'] eqn:E.
  - left. pose proof (handle_answer _ _ _ _ _ E) as Ha. destruct (write_answer o Ha) as (w & Hw & Hs).
    exists s', w. unfold serve_http. rewrite E, Hw.
    destruct Hs as [e w He ->|rq e loc|r'|r' loc|r' loc|r'| | |h Hh]; cbn [rw_sent sent_redirect sent_document];
      do 2 eexists; (split; [reflexivity|split; [reflexivity|]]); try (cbn; tauto).
    apply plain_error_shape in He as (_ & _ & _ & _ & _ & _ & Hx).
    destruct Hx as [(_ & -> & _)|([-> | ->] & _)]; cbn; tauto.
  - right. apply handle_panic in E as E'. destruct E' as [-> Hk]. unfold serve_http. rewrite E. split; [done|].
    by apply no_two_keys_spec.
Qed.
Lemma c54_authorize : forall now s r required w, unsent w ->
  exists b w', authorize now s r required w = Some (b, w') /\ (b = true -> w' = w) /\
    (b = false -> exists code h, rw_sent w' = Some (code, h) /\ In code [400; 401; 403]%Z).
Proof.
  intros now s r required w Hw. unfold authorize.
  assert (HD : forall e, In (e_status e) [400; 401; 403]%Z -> exists b w', (match write_bearer_error w (GErr e) with
     | Some (w', _) => Some (false, w') | None => None end) = Some (b, w') /\ (b = true -> w' = w) /\
     (b = false -> exists code h, rw_sent w' = Some (code, h) /\ In code [400; 401; 403]%Z)).
  { intros e He. destruct (write_bearer_unsent w e) as (w' & H & Hc & _); [done|..].
    - unfold valid_status. cbn in He. destruct He as [<-|[<-|[<-|[]]]]; lia.
    - cbn in He. destruct He as [<-|[<-|[<-|[]]]]; lia.
    - rewrite H. exists false, w'. split; [done|]. split; [done|]. intros _. unfold status in Hc.
      destruct (rw_sent w') as [[c h]|]; [|cbn in He; destruct He as [E|[E|[E|[]]]]; rewrite <- E in Hc; done].
      exists c, h. split; [done|]. by rewrite Hc. }
  destruct (authorize_cases now s r required) as [(_ & ->)|[(_ & _ & ->)|(str & _ & [(_ & ->)|(sg & _ & [(_ & ->)|(c & _ & [(_ & ->)|(_ & [(_ & ->)|(_ & ->)])])])])]];
    try (apply HD; cbn; tauto).
  exists true, w. done.
Qed.

(** ** C58 *)
Lemma as_used_mark d : mark_used d = as_used d.
Proof. done. Qed.
Lemma at_token_params s r req c : at_token s r req c ->
  endpoint r "token" /\ tq_code req = body_param r "code" /\ tq_refresh_token req = body_param r "refresh_token" /\
  tq_grant_type req = body_param r "grant_type" /\ tq_username req = body_param r "username" /\
  tq_password req = body_param r "password" /\ tq_scope req = parse_scope (body_param r "scope") /\
  query_unescape (body_param r "redirect_uri") = Some (tq_redirect_uri req).
Proof.
  intros Hat. pose proof Hat as (_ & Hq & _). apply parse_token_inl in Hq as (_ & _ & ? & ? & ? & ? & ? & ? & ? & _).
  apply at_token_facts in Hat as (He & _). done.
Qed.
Lemma c58_frame : forall ev s r s' o, handle ev s r = Done s' o ->
  (exists t, o = OToken t) \/ (exists c, o = OCode c) ->
  same_registry s s' /\
  (forall k, ~ hands_out_access (server_secret s) o k -> sv_access s' !! k = sv_access s !! k) /\
  (forall k, ~ hands_out_refresh (server_secret s) o k -> sv_refresh s' !! k = sv_refresh s !! k \/
     (endpoint r "token" /\ body_param r "grant_type" = "refresh_token" /\
      names (server_secret s) (body_param r "refresh_token") k /\ sv_refresh s' !! k = None)) /\
  (forall k, ~ hands_out_code (server_secret s) o k -> sv_codes s' !! k = sv_codes s !! k \/
     (endpoint r "token" /\ body_param r "grant_type" = "authorization_code" /\
      names (server_secret s) (body_param r "code") k /\
      exists d, sv_codes s !! k = Some d /\ cd_used d = false /\ sv_codes s' !! k = Some (as_used d))).
Proof.
  intros ev s r s' o H Ho. apply handled_of in H. inversion H; subst; try (by destruct Ho as [[? ?]|[? ?]]).
  - match goal with H : issued_access _ _ _ _ _ _ _ _ |- _ => apply issued_access_facts in H as (sg & Hn & _ & _ & _ & _ & ->) end.
    cbn. split; [done|]. split; [|split; intros; by left].
    intros k Hk. rewrite lookup_insert_ne; [done|]. intros <-. apply Hk. eexists. split; [done|]. done.
  - cbn. split; [done|]. split; [done|]. split; [intros; by left|]. intros k' Hk. left. rewrite lookup_insert_ne; [done|].
    intros <-. apply Hk. eexists. split; [done|]. cbn. by eapply generated_names.
  - match goal with H : issued_both _ _ _ _ _ _ _ _ |- _ => apply issued_both_facts in H as (sg & sgf & Hn & Hnf & _ & _ & _ & ->) end.
    cbn. split; [done|]. split; [|split; [|intros; by left]].
    + intros k Hk. rewrite lookup_insert_ne; [done|]. intros <-. apply Hk. eexists. split; [done|]. done.
    + intros k Hk. left. rewrite lookup_insert_ne; [done|]. intros <-. apply Hk. eexists. split; [done|]. done.
  - match goal with H : issued_both _ _ _ _ _ _ _ _ |- _ => apply issued_both_facts in H as (sg & sgf & Hn & Hnf & _ & _ & _ & ->) end.
    cbn. split; [done|]. split; [|split; [|intros; by left]].
    + intros k Hk. rewrite lookup_insert_ne; [done|]. intros <-. apply Hk. eexists. split; [done|]. done.
    + intros k Hk. left. rewrite lookup_insert_ne; [done|]. intros <-. apply Hk. eexists. split; [done|]. done.
  - match goal with H : issued_both _ _ _ _ _ _ _ _ |- _ => apply issued_both_facts in H as (sg & sgf & Hn & Hnf & _ & _ & _ & ->) end.
    match goal with H : at_token _ _ _ _ |- _ => apply at_token_params in H as (He & Hcode & _ & Hgt & _) end.
    cbn. split; [done|]. split; [|split].
    + intros k' Hk. rewrite lookup_insert_ne; [done|]. intros <-. apply Hk. eexists. split; [done|]. done.
    + intros k' Hk. left. rewrite lookup_insert_ne; [done|]. intros <-. apply Hk. eexists. split; [done|]. done.
    + intros k' _. destruct (decide (signature_string k = k')) as [<-|Hne]; [right|left; by rewrite lookup_insert_ne].
      split; [done|]. split; [congruence|]. split; [rewrite <- Hcode; by apply names_parsed|]. exists d. by rewrite lookup_insert.
  - match goal with H : issued_both _ _ _ _ _ _ _ _ |- _ => apply issued_both_facts in H as (sg & sgf & Hn & Hnf & _ & _ & _ & ->) end.
    match goal with H : at_token _ _ _ _ |- _ => apply at_token_params in H as (He & _ & Hrt & Hgt & _) end.
    cbn. split; [done|]. split; [|split; [|intros; by left]].
    + intros k' Hk. rewrite lookup_insert_ne; [done|]. intros <-. apply Hk. eexists. split; [done|]. done.
    + intros k' Hk. destruct (decide (signature_string k = k')) as [<-|Hne].
      * right. split; [done|]. split; [congruence|]. split; [rewrite <- Hrt; by apply names_parsed|]. apply lookup_delete.
      * left. rewrite lookup_delete_ne by done. rewrite lookup_insert_ne; [done|]. intros <-. apply Hk. eexists. split; [done|]. done.
Qed.

(** What is stored for the new tokens. *)
Lemma c58_tokens : forall ev s r s' t, handle ev s r = Done s' (OToken t) ->
  exists a, access_token s' (tr_access_token t) a /\ acts_for r (cd_client_id a) /\ cd_scope a = tr_scope t /\
    cd_expires_at a = (ev_now_access ev + cfg_access_lifespan (sv_config s))%Z /\
    (tr_refresh_token t <> "" -> (forall d, ~ refresh_token s (tr_refresh_token t) d) ->
     exists f, refresh_token s' (tr_refresh_token t) f /\ cd_client_id f = cd_client_id a /\
       cd_username f = cd_username a /\ cd_scope f = tr_scope t /\ cd_code f = cd_code a /\
       cd_expires_at f = (ev_now_refresh ev + cfg_refresh_lifespan (sv_config s))%Z).
Proof.
  intros ev s r s' t H. apply handled_of in H. inversion H; subst.
  - match goal with H : issued_access _ _ _ _ _ _ _ _ |- _ => apply issued_access_facts in H as (sg & Hn & Hr & Hsc & _ & _ & ->) end.
    match goal with H : at_authorize _ _ _ _ |- _ => pose proof H as (He & _); apply at_authorize_uri in H as (_ & _ & Hc & _) end.
    eexists. split; [exists sg; split; [exact Hn|apply lookup_insert]|]. cbn.
    split; [left; split; [by apply endpoint_authorize|done]|]. split; [done|]. split; [done|]. done.
  - match goal with H : issued_both _ _ _ _ _ _ _ _ |- _ => apply issued_both_facts in H as (sg & sgf & Hn & Hnf & Hsc & _ & _ & ->) end.
    match goal with H : at_token _ _ _ _ |- _ => apply at_token_facts in H as (He & _ & Hcc & _) end.
    eexists. split; [exists sg; split; [exact Hn|apply lookup_insert]|]. cbn.
    split; [right; split; [rewrite endpoint_authorize; intros Hx; by apply not_authorize_token in Hx|by rewrite Hcc]|].
    split; [done|]. split; [done|]. intros _ _. eexists. split; [exists sgf; split; [exact Hnf|apply lookup_insert]|]. done.
  - match goal with H : issued_both _ _ _ _ _ _ _ _ |- _ => apply issued_both_facts in H as (sg & sgf & Hn & Hnf & Hsc & _ & _ & ->) end.
    match goal with H : at_token _ _ _ _ |- _ => apply at_token_facts in H as (He & _ & Hcc & _) end.
    eexists. split; [exists sg; split; [exact Hn|apply lookup_insert]|]. cbn.
    split; [right; split; [rewrite endpoint_authorize; intros Hx; by apply not_authorize_token in Hx|by rewrite Hcc]|].
    split; [done|]. split; [done|]. intros _ _. eexists. split; [exists sgf; split; [exact Hnf|apply lookup_insert]|]. done.
  - match goal with H : issued_both _ _ _ _ _ _ _ _ |- _ => apply issued_both_facts in H as (sg & sgf & Hn & Hnf & Hsc & _ & _ & ->) end.
    match goal with H : at_token _ _ _ _ |- _ => apply at_token_facts in H as (He & _ & Hcc & _) end.
    eexists. split; [exists sg; split; [exact Hn|apply lookup_insert]|]. cbn.
    split; [right; split; [rewrite endpoint_authorize; intros Hx; by apply not_authorize_token in Hx|by rewrite Hcc]|].
    split; [done|]. split; [done|]. intros _ _. eexists. split; [exists sgf; split; [exact Hnf|apply lookup_insert]|]. done.
  - match goal with H : issued_both _ _ _ _ _ _ _ _ |- _ => apply issued_both_facts in H as (sg & sgf & Hn & Hnf & Hsc & _ & _ & ->) end.
    match goal with H : at_token _ _ _ _ |- _ => apply at_token_facts in H as (He & _ & Hcc & _) end.
    eexists. split; [exists sg; split; [exact Hn|apply lookup_insert]|]. cbn.
    split; [right; split; [rewrite endpoint_authorize; intros Hx; by apply not_authorize_token in Hx|by rewrite Hcc]|].
    split; [done|]. split; [done|]. intros _ Hun. eexists. split; [exists sgf; split; [exact Hnf|]|].
    + cbn. rewrite lookup_delete_ne; [apply lookup_insert|]. intros <-. apply (Hun d). by eexists.
    + done.
Qed.
Lemma r_user_param r : r_user r = body_param r "username".
Proof. unfold r_user, post_form, body_param. destruct (parse_form r); done. Qed.
Lemma r_password_param r : r_password r = body_param r "password".
Proof. unfold r_password, post_form, body_param. destruct (parse_form r); done. Qed.
Lemma c58_code : forall ev s r s' c, handle ev s r = Done s' (OCode c) ->
  exists d, auth_code s' (cr_code c) d /\ acts_for r (cd_client_id d) /\ cd_username d = body_param r "username" /\
    cd_scope d = parse_scope (form_param r "scope") /\
    query_unescape (form_param r "redirect_uri") = Some (cd_redirect_uri d) /\ cd_used d = false /\
    cd_expires_at d = (ev_now_code ev + cfg_code_lifespan (sv_config s))%Z.
Proof.
  intros ev s r s' c H. apply handled_of in H. inversion H; subst.
  match goal with H : at_authorize _ _ _ _ |- _ => pose proof H as (He & _); apply at_authorize_uri in H as (_ & _ & Hc & Hu & _ & _ & Hsc) end.
  eexists. split; [exists (signature_string k); split; [by eapply generated_names|apply lookup_insert]|]. cbn.
  rewrite r_user_param. split; [left; split; [by apply endpoint_authorize|done]|]. done.
Qed.

(** ** C59 *)
Lemma enough_one ev s : enough_random ev s 1 <-> ~ no_key ev s.
Proof.
  unfold enough_random, no_key, cfg_must_generate, must_generate, generate.
  destruct (Z.ltb_spec (cfg_key_length (sv_config s)) 0) as [Hn|Hn]; [split; [lia|done]|].
  destruct (read_full_spec (Z.to_nat (cfg_key_length (sv_config s))) (ev_rand ev)) as [H1 H2].
  destruct (Nat.ltb_spec (slen (ev_rand ev)) (Z.to_nat (cfg_key_length (sv_config s)))) as [Hl|Hl].
  - rewrite H2 by done. split; [lia|done].
  - destruct (H1 Hl) as (k & x & -> & _). split; [done|lia].
Qed.
Lemma enough_two ev s : enough_random ev s 2 <-> ~ no_two_keys ev s.
Proof.
  split.
  - intros [H1 H2] H. apply no_two_keys_spec in H. lia.
  - intros H. assert (H1 : enough_random ev s 1) by (apply enough_one; intros Hx; apply H; by left).
    destruct H1 as [H1 H2]. split; [done|].
    destruct (Z.leb_spec (2 * cfg_key_length (sv_config s)) (Z.of_nat (slen (ev_rand ev)))) as [|Hl]; [done|]. exfalso. apply H.
    unfold no_two_keys, cfg_must_generate, must_generate, generate. right.
    assert ((cfg_key_length (sv_config s) <? 0)%Z = false) as -> by lia.
    destruct (read_full_spec (Z.to_nat (cfg_key_length (sv_config s))) (ev_rand ev)) as [(k & x & -> & Hx & Hlen) _]; [lia|].
    eexists _, _. split; [done|]. rewrite (proj2 (read_full_spec _ _)); [done|]. rewrite Hx, slen_app in Hl. lia.
Qed.
Lemma issue_both_enough ev s sc c o k : enough_random ev s 2 <-> is_Some (issue_tokens ev s true sc c o k).
Proof.
  rewrite enough_two. pose proof (issue_both_spec ev s sc c o k) as H. destruct (issue_tokens ev s true sc c o k) as [[s' t]|].
  - split; [by eauto|]. intros _ Hn. destruct H as (a & src & f & src' & H1 & H2 & _).
    destruct Hn as [Hn|(a' & src1 & H3 & H4)]; [unfold no_key in Hn; congruence|]. congruence.
  - split; [|by intros [? ?]]. intros Hn. by destruct Hn.
Qed.
Lemma issue_access_enough ev s sc c o k : enough_random ev s 1 <-> is_Some (issue_tokens ev s false sc c o k).
Proof.
  rewrite enough_one. pose proof (issue_access_spec ev s sc c o k) as H. destruct (issue_tokens ev s false sc c o k) as [[s' t]|].
  - split; [by eauto|]. intros _ Hn. destruct H as (a & src & H1 & _). unfold no_key in Hn. congruence.
  - split; [|by intros [? ?]]. intros Hn. by destruct Hn.
Qed.
Lemma yields_issue (o : option (server * token_response)) s f g :
  (exists s' t, match o with None => Panic s | Some (s1, t1) => Done (f s1) (OToken (g t1)) end = Done s' (OToken t)) <-> is_Some o.
Proof. destruct o as [[s1 t1]|]; split; try (by intros [? ?]); try (intros (? & ? & ?); done); eauto. Qed.

Lemma c59_password : forall ev s r id, complete_token_request r -> from_client s r id ->
  body_param r "grant_type" = "password" ->
  (exists s' t, handle ev s r = Done s' (OToken t)) <->
  (password_of s (body_param r "username") (body_param r "password") /\
   covers (cfg_allowed_scope (sv_config s)) (parse_scope (body_param r "scope")) /\ enough_random ev s 2).
Proof.
  intros ev s r id Hc Hf Hg. destruct (token_past_client ev s r id Hc Hf) as (q & c & Hq & _ & _ & _ & ->).
  apply parse_token_inl in Hq as (_ & _ & Hgt & Hu & Hp & _ & _ & Hsc & _). rewrite Hgt, Hg.
  change (seqb "password" PasswordGrantType) with true. cbv iota.
  unfold handle_password. rewrite password_spec, covers_spec, Hu, Hp, Hsc.
  destruct (owner_ok s _ _); cbn [negb]; [|split; [by intros (? & ? & ?)|by intros (? & _)]].
  destruct (scope_includes _ _); cbn [negb]; [|split; [by intros (? & ? & ?)|by intros (_ & ? & _)]].
  rewrite (issue_both_enough ev s (parse_scope (body_param r "scope")) (tq_client_id q) (body_param r "username") "").
  rewrite <- (yields_issue _ s Datatypes.id Datatypes.id). unfold Datatypes.id. tauto.
Qed.
Lemma c59_client_credentials : forall ev s r id, complete_token_request r -> from_client s r id ->
  body_param r "grant_type" = "client_credentials" ->
  (exists s' t, handle ev s r = Done s' (OToken t)) <->
  ((exists c, sv_clients s !! id = Some c /\ en_confidential c = true) /\
   covers (cfg_allowed_scope (sv_config s)) (parse_scope (body_param r "scope")) /\ enough_random ev s 2).
Proof.
  intros ev s r id Hc Hf Hg. destruct (token_past_client ev s r id Hc Hf) as (q & c & Hq & <- & Hcl & _ & ->).
  apply parse_token_inl in Hq as (_ & _ & Hgt & Hu & Hp & _ & _ & Hsc & _). rewrite Hgt, Hg.
  change (seqb "client_credentials" PasswordGrantType) with false. change (seqb "client_credentials" ClientCredentialsGrantType) with true. cbv iota.
  unfold handle_client_credentials. rewrite Hcl, covers_spec, Hsc.
  destruct (en_confidential c) eqn:Ec; cbn [negb]; [|split; [by intros (? & ? & ?)|intros ((c' & [= <-] & Hx) & _); congruence]].
  destruct (scope_includes _ _); cbn [negb]; [|split; [by intros (? & ? & ?)|by intros (_ & ? & _)]].
  rewrite (issue_both_enough ev s (parse_scope (body_param r "scope")) (tq_client_id q) "" "").
  rewrite <- (yields_issue _ s Datatypes.id Datatypes.id). unfold Datatypes.id. split; [|tauto]. intros H. split; [eauto|done].
Qed.
Lemma c59_code : forall ev s r id, complete_token_request r -> from_client s r id ->
  body_param r "grant_type" = "authorization_code" ->
  (exists s' t, handle ev s r = Done s' (OToken t)) <->
  ((exists d, auth_code s (body_param r "code") d /\ cd_used d = false /\ (ev_now_check ev <= cd_expires_at d)%Z /\
     cd_client_id d = id /\ query_unescape (body_param r "redirect_uri") = Some (cd_redirect_uri d)) /\
   enough_random ev s 2).
Proof.
  intros ev s r id Hc Hf Hg. destruct (token_past_client ev s r id Hc Hf) as (q & c & Hq & <- & Hcl & _ & ->).
  apply parse_token_inl in Hq as (_ & _ & Hgt & _ & _ & _ & Hcode & _ & Hru & _). rewrite Hgt, Hg.
  change (seqb "authorization_code" PasswordGrantType) with false. change (seqb "authorization_code" ClientCredentialsGrantType) with false.
  change (seqb "authorization_code" AuthorizationCodeGrantType) with true. cbv iota.
  unfold handle_code. rewrite Hcode, Hru.
  destruct (parse_token (cfg_secret (sv_config s)) (body_param r "code")) as [k|msg] eqn:Et.
  2:{ split; [by intros (? & ? & ?)|]. intros ((d & (sg & Hn & _) & _) & _). by eapply not_names in Hn. }
  cbv zeta.
  assert (HA : forall d, auth_code s (body_param r "code") d <-> sv_codes s !! signature_string k = Some d).
  { intros d. split; [intros (sg & Hn & Hd); by rewrite (names_fun _ _ _ _ (names_parsed _ _ _ Et) Hn)|]. intros Hd. exists (signature_string k).
    split; [by apply names_parsed|done]. }
  destruct (sv_codes s !! signature_string k) as [d|] eqn:Ed.
  2:{ split; [by intros (? & ? & ?)|]. intros ((d & Hd & _) & _). by apply HA in Hd. }
  assert (HB : (exists d, auth_code s (body_param r "code") d /\ cd_used d = false /\ (ev_now_check ev <= cd_expires_at d)%Z /\
     cd_client_id d = tq_client_id q /\ Some (tq_redirect_uri q) = Some (cd_redirect_uri d)) <->
     (cd_used d = false /\ (ev_now_check ev <= cd_expires_at d)%Z /\ cd_client_id d = tq_client_id q /\ cd_redirect_uri d = tq_redirect_uri q)).
  { split; [|intros (?&?&?&?); exists d; rewrite HA; split_and!; try done; congruence].
    intros (d' & Hd & H1 & H2 & H3 & H4). apply HA in Hd. injection Hd as <-. split_and!; try done. congruence. }
  rewrite HB. clear HA HB.
  destruct (cd_used d) eqn:Eu; [split; [by intros (? & ? & ?)|by intros ((? & _) & _)]|].
  destruct (Z.ltb_spec (cd_expires_at d) (ev_now_check ev)); [split; [by intros (? & ? & ?)|lia]|].
  destruct (seqb (cd_client_id d) (tq_client_id q)) eqn:E1; cbn [negb].
  2:{ apply seqb_false in E1. split; [by intros (? & ? & ?)|tauto]. }
  destruct (seqb (cd_redirect_uri d) (tq_redirect_uri q)) eqn:E2; cbn [negb].
  2:{ apply seqb_false in E2. split; [by intros (? & ? & ?)|tauto]. }
  apply seqb_true in E1, E2.
  rewrite (issue_both_enough ev s (cd_scope d) (tq_client_id q) (cd_username d) (signature_string k)).
  rewrite <- (yields_issue _ s (fun s1 => set_codes s1 (<[signature_string k:=mark_used d]> (sv_codes s1))) Datatypes.id). unfold Datatypes.id. tauto.
Qed.
Lemma c59_refresh : forall ev s r id, complete_token_request r -> from_client s r id ->
  body_param r "grant_type" = "refresh_token" ->
  (exists s' t, handle ev s r = Done s' (OToken t)) <->
  ((exists d, refresh_token s (body_param r "refresh_token") d /\ (ev_now_check ev <= cd_expires_at d)%Z /\
     cd_client_id d = id /\ covers (cd_scope d) (parse_scope (body_param r "scope"))) /\
   enough_random ev s 2).
Proof.
  intros ev s r id Hc Hf Hg. destruct (token_past_client ev s r id Hc Hf) as (q & c & Hq & <- & Hcl & _ & ->).
  apply parse_token_inl in Hq as (_ & _ & Hgt & _ & _ & Hrt & _ & Hsc & _). rewrite Hgt, Hg.
  change (seqb "refresh_token" PasswordGrantType) with false. change (seqb "refresh_token" ClientCredentialsGrantType) with false.
  change (seqb "refresh_token" AuthorizationCodeGrantType) with false. cbv iota.
  unfold handle_refresh. rewrite Hrt, Hsc.
  destruct (parse_token (cfg_secret (sv_config s)) (body_param r "refresh_token")) as [k|msg] eqn:Et.
  2:{ split; [by intros (? & ? & ?)|]. intros ((d & (sg & Hn & _) & _) & _). by eapply not_names in Hn. }
  cbv zeta.
  assert (HA : forall d, refresh_token s (body_param r "refresh_token") d <-> sv_refresh s !! signature_string k = Some d).
  { intros d. split; [intros (sg & Hn & Hd); by rewrite (names_fun _ _ _ _ (names_parsed _ _ _ Et) Hn)|]. intros Hd. exists (signature_string k).
    split; [by apply names_parsed|done]. }
  destruct (sv_refresh s !! signature_string k) as [d|] eqn:Ed.
  2:{ split; [by intros (? & ? & ?)|]. intros ((d & Hd & _) & _). by apply HA in Hd. }
  assert (HB : (exists d, refresh_token s (body_param r "refresh_token") d /\ (ev_now_check ev <= cd_expires_at d)%Z /\
     cd_client_id d = tq_client_id q /\ covers (cd_scope d) (parse_scope (body_param r "scope"))) <->
     ((ev_now_check ev <= cd_expires_at d)%Z /\ cd_client_id d = tq_client_id q /\ covers (cd_scope d) (parse_scope (body_param r "scope")))).
  { split; [|intros (?&?&?); exists d; rewrite HA; done].
    intros (d' & Hd & H1 & H2 & H3). apply HA in Hd. injection Hd as <-. done. }
  rewrite HB. clear HA HB.
  destruct (Z.ltb_spec (cd_expires_at d) (ev_now_check ev)); [split; [by intros (? & ? & ?)|lia]|].
  destruct (seqb (cd_client_id d) (tq_client_id q)) eqn:E1; cbn [negb].
  2:{ apply seqb_false in E1. split; [by intros (? & ? & ?)|tauto]. }
  apply seqb_true in E1. set (sc := if scope_empty _ then _ else _).
  assert (Hcov : covers (cd_scope d) (parse_scope (body_param r "scope")) <-> scope_includes (cd_scope d) sc = true).
  { rewrite <- covers_spec. unfold sc. destruct (scope_empty (parse_scope (body_param r "scope"))) eqn:Ee; [|done].
    apply scope_empty_items in Ee. unfold covers. rewrite Ee. split; intros _; [apply incl_refl|apply incl_nil_l]. }
  rewrite Hcov. destruct (scope_includes (cd_scope d) sc); cbn [negb]; [|split; [by intros (? & ? & ?)|by intros ((_ & _ & ?) & _)]].
  rewrite (issue_both_enough ev s sc (tq_client_id q) (cd_username d) "").
  rewrite <- (yields_issue _ s (fun s1 => set_refresh s1 (delete (signature_string k) (sv_refresh s1))) Datatypes.id). unfold Datatypes.id. tauto.
Qed.
Lemma authorization_past_client ev s r : complete_authorization s r -> rq_method r = "POST" ->
  exists q, parse_authorization_request r = inl q /\ aq_scope q = parse_scope (form_param r "scope") /\
    aq_client_id q = form_param r "client_id" /\
    handle ev s r = if seqb (form_param r "response_type") "token"
      then handle_implicit ev s (body_param r "username") (body_param r "password") q
      else handle_code_authorization ev s (body_param r "username") (body_param r "password") q.
Proof.
  intros (He & (q & Hq) & Ht & c & Hc & Hu) Hm. exists q.
  pose proof (parse_authorization_inl r q Hq) as (_ & (f & Hf & H1 & _ & H2 & H3 & _ & H4 & _) & _).
  assert (HF : forall k, form_param r k = vget (f_form f) k) by (intros k; unfold form_param; by rewrite Hf).
  rewrite !HF in *. rewrite H4 in Hu. injection Hu as Hu.
  split; [done|]. split; [done|]. split; [done|]. rewrite handle_authorize by done.
  unfold authorization_endpoint. rewrite Hq.
  assert (known_response_type (aq_response_type q) = true) as ->.
  { rewrite <- H1 in Ht. destruct Ht as [<-|[<-|[]]]; done. }
  cbn [negb]. rewrite H3, Hc, Hu, seqb_refl. cbn [negb]. rewrite Hm. change (seqb "POST" "GET") with false. cbv iota zeta.
  fold (r_user r) (r_password r). rewrite r_user_param, r_password_param. by rewrite H1.
Qed.
Lemma c59_implicit : forall ev s r, complete_authorization s r -> rq_method r = "POST" ->
  form_param r "response_type" = "token" ->
  (exists s' t, handle ev s r = Done s' (OToken t)) <->
  (password_of s (body_param r "username") (body_param r "password") /\
   covers (cfg_allowed_scope (sv_config s)) (parse_scope (form_param r "scope")) /\ enough_random ev s 1).
Proof.
  intros ev s r Hc Hm Ht. destruct (authorization_past_client ev s r Hc Hm) as (q & _ & Hsc & _ & ->). rewrite Ht.
  change (seqb "token" "token") with true. cbv iota. unfold handle_implicit. rewrite password_spec, covers_spec, Hsc.
  destruct (scope_includes _ _); cbn [negb]; [|split; [by intros (? & ? & ?)|by intros (_ & ? & _)]].
  destruct (owner_ok s _ _); cbn [negb]; [|split; [by intros (? & ? & ?)|by intros (? & _)]].
  rewrite (issue_access_enough ev s (parse_scope (form_param r "scope")) (aq_client_id q) (body_param r "username") "").
  rewrite <- (yields_issue _ s Datatypes.id (fun r => set_token_redirect r (aq_redirect_uri q) (aq_state q))). unfold Datatypes.id. tauto.
Qed.
Lemma c59_authorization_code : forall ev s r, complete_authorization s r -> rq_method r = "POST" ->
  form_param r "response_type" = "code" ->
  (exists s' c, handle ev s r = Done s' (OCode c)) <->
  (password_of s (body_param r "username") (body_param r "password") /\
   covers (cfg_allowed_scope (sv_config s)) (parse_scope (form_param r "scope")) /\ enough_random ev s 1).
Proof.
  intros ev s r Hc Hm Ht. destruct (authorization_past_client ev s r Hc Hm) as (q & _ & Hsc & _ & ->). rewrite Ht.
  change (seqb "code" "token") with false. cbv iota. unfold handle_code_authorization. rewrite password_spec, covers_spec, Hsc.
  destruct (scope_includes _ _); cbn [negb]; [|split; [by intros (? & ? & ?)|by intros (_ & ? & _)]].
  destruct (owner_ok s _ _); cbn [negb]; [|split; [by intros (? & ? & ?)|by intros (? & _)]].
  rewrite enough_one. unfold no_key. destruct (cfg_must_generate (sv_config s) (ev_rand ev)) as [[k src]|].
  - split; [done|]. intros _. eauto.
  - split; [by intros (? & ? & ?)|]. intros (_ & _ & H). by destruct H.
Qed.

(** ** C35: one redemption *)
Lemma c35_redeem : forall ev s r s' t,
  handle ev s r = Done s' (OToken t) -> endpoint r "token" -> body_param r "grant_type" = "authorization_code" ->
  exists d sg, auth_code s (body_param r "code") d /\ names (server_secret s) (body_param r "code") sg /\
    from_client s r (cd_client_id d) /\ cd_used d = false /\ (ev_now_check ev <= cd_expires_at d)%Z /\
    query_unescape (body_param r "redirect_uri") = Some (cd_redirect_uri d) /\ tr_scope t = cd_scope d /\
    (exists a, access_token s' (tr_access_token t) a /\ cd_client_id a = cd_client_id d /\
       cd_username a = cd_username d /\ cd_scope a = cd_scope d /\ cd_code a = sg) /\
    (exists f, refresh_token s' (tr_refresh_token t) f /\ cd_client_id f = cd_client_id d /\
       cd_username f = cd_username d /\ cd_scope f = cd_scope d /\ cd_code f = sg) /\
    auth_code s' (body_param r "code") (as_used d).
Proof.
  intros ev s r s' t H He Hg. apply handled_of in H. inversion H; subst;
    repeat match goal with
    | H : at_authorize _ _ _ _ |- _ => exfalso; destruct H as (Hx & _); by eapply not_authorize_token
    | H : at_token _ _ _ _ |- _ => pose proof (at_token_params _ _ _ _ H) as (_ & Hcode & _ & Hgt & _ & _ & _ & Hru);
        apply at_token_facts in H as (_ & _ & Hcc & Hau)
    end; try congruence.
  match goal with H : issued_both _ _ _ _ _ _ _ _ |- _ => apply issued_both_facts in H as (sg & sgf & Hn & Hnf & Hsc & _ & _ & ->) end.
  assert (Hnm : names (server_secret s) (body_param r "code") (signature_string k)) by (rewrite <- Hcode; by apply names_parsed).
  exists d, (signature_string k). split; [by eexists|]. split; [done|].
  match goal with H : cd_client_id d = _ |- _ => rewrite H end. split; [by exists (tq_client_secret req)|].
  split; [done|]. split; [done|]. split; [congruence|]. split; [done|].
  split; [|split].
  - eexists. split; [exists sg; split; [exact Hn|apply lookup_insert]|]. done.
  - eexists. split; [exists sgf; split; [exact Hnf|apply lookup_insert]|]. done.
  - exists (signature_string k). split; [exact Hnm|]. cbn. apply lookup_insert.
Qed.
