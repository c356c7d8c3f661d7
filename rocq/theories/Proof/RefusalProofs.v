(** Proofs about the errors of refusals (C84). *)
From Verif.Model Require Import Server.
From Verif.Spec Require Import TokenSpec ScopeSpec WireSpec RequestSpec ServerSpec RefusalSpec.
From Verif.Proof Require Import StrFacts Base64Facts HsFacts TokenProofs UrlFacts UrlParse JsonFacts ScopeFacts
  ScopeProofs WireFacts WireProofs Redirect ServerFacts Steps RequestProofs RequestParse ServerProofs GrantProofs EffectProofs.

(** ** From the decision to the answer *)
Definition decided (ev : env) (s : server) (r : request) (code : Z) (name : string) : Prop :=
  exists s' e, handle ev s r = Done s' (OError e) /\ plain_error e /\ e_status e = code /\ e_name e = name.
Lemma decided_answer ev s r code name : decided ev s r code name ->
  exists w, serves ev s r w /\ error_document w code name.
Proof.
  intros (s' & e & Hh & He & <- & <-). destruct (write_plain e He) as (w & Hw & _ & Hd & _).
  exists w. split; [|done]. exists s'. unfold serve_http. by rewrite Hh, Hw.
Qed.
Lemma answer_decided ev s r w : serves ev s r w ->
  status w = 200%Z \/ header_values w "Location" <> [] \/
  (exists name, decided ev s r (status w) name /\ error_document w (status w) name) \/
  exists s', handle ev s r = Done s' ONotFound.
Proof.
  intros (s' & Hs). destruct (serve_sent _ _ _ _ _ Hs) as (o & Hh & _ & Ho).
  inversion Ho; subst; try (right; left; by rewrite redirect_location_header); try (by left).
  - right. right. left. destruct (write_plain e) as (w & Hw & Hst & Hd & _); [done|].
    unfold serve_http in Hs. rewrite Hh, Hw in Hs. injection Hs as Hs. rewrite <- Hs. rewrite <- Hst in Hd.
    exists (e_name e). split; [|done]. exists s', e. by rewrite Hst.
  - right. right. right. eauto.
Qed.
Lemma refuses_from ev s r (refusal : Z -> string -> Prop) :
  (forall s', handle ev s r <> Done s' ONotFound) ->
  (forall code name, refusal code name -> decided ev s r code name) ->
  (forall s' e, handle ev s r = Done s' (OError e) -> plain_error e -> refusal (e_status e) (e_name e)) ->
  refuses_with ev s r refusal.
Proof.
  intros Hn H1 H2. split.
  - intros code name H. apply decided_answer. by apply H1.
  - intros w Hw. destruct (answer_decided ev s r w Hw) as [?|[?|[(name & (s' & e & Hh & He & <- & <-) & Hd)|(s' & Hh)]]]; auto.
    + right. right. eauto.
    + by destruct (Hn s').
Qed.
Lemma found ev s r name : In name ["authorize"; "token"; "introspect"; "revoke"] -> endpoint r name ->
  forall s', handle ev s r <> Done s' ONotFound.
Proof.
  intros Hi He s' H. apply handled_of in H. inversion H; subst.
  destruct Hi as [<-|[<-|[<-|[<-|[]]]]]; rewrite ?endpoint_authorize, ?endpoint_token, ?endpoint_introspect, ?endpoint_revoke in He; naive_solver.
Qed.

(** ** The token endpoint *)
Lemma decide_error ev s r s' e : handle ev s r = Done s' (OError e) -> plain_error e ->
  decided ev s r (e_status e) (e_name e).
Proof. intros H1 H2. exists s', e. done. Qed.
Lemma token_inr_request r e : parse_token_request r = inr e -> e_status e = 400%Z /\ e_name e = "invalid_request".
Proof.
  unfold parse_token_request. intros H. cbv zeta in H. split_match H; try (by injection H as <-).
  all: destruct (basic_auth r) as [[]|]; split_match H; by injection H as <-.
Qed.
Lemma authentic_spec s str : authentic s str <-> exists t, parse_token (cfg_secret (sv_config s)) str = inl t.
Proof.
  unfold authentic. split.
  - intros (sg & H). apply names_spec in H as (t & H & _). eauto.
  - intros (t & H). exists (signature_string t). by apply names_parsed.
Qed.
Lemma not_allowed s x : ~ allowed_scope s x <-> scope_includes (cfg_allowed_scope (sv_config s)) (parse_scope x) = false.
Proof. unfold allowed_scope. rewrite covers_spec. by destruct (scope_includes _ _). Qed.
Lemma not_password s u p : ~ password_of s u p <-> owner_ok s u p = false.
Proof. rewrite password_spec. by destruct (owner_ok s u p). Qed.

(** Beyond the client check. *)
Lemma token_grant ev s r id grant : token_request_for s r id grant ->
  exists q c, parse_token_request r = inl q /\ tq_client_id q = id /\ sv_clients s !! id = Some c /\
   tq_username q = body_param r "username" /\ tq_password q = body_param r "password" /\
   tq_refresh_token q = body_param r "refresh_token" /\ tq_code q = body_param r "code" /\
   tq_scope q = parse_scope (body_param r "scope") /\
   query_unescape (body_param r "redirect_uri") = Some (tq_redirect_uri q) /\
   handle ev s r = (if seqb grant "password" then handle_password ev s q
          else if seqb grant "client_credentials" then handle_client_credentials ev s q
          else if seqb grant "authorization_code" then handle_code ev s q
          else handle_refresh ev s q).
Proof.
  intros (Hc & Hf & Hg). destruct (token_past_client ev s r id Hc Hf) as (q & c & Hq & Hid & Hcl & _ & Hh).
  pose proof (parse_token_inl r q Hq) as (_ & _ & Hgt & Hu & Hp & Hr & Hco & Hs & Hru & _).
  exists q, c. rewrite Hh, Hgt, Hg. done.
Qed.
Lemma token_refusal_decided ev s r code name : endpoint r "token" ->
  token_refusal ev s r code name -> decided ev s r code name.
Proof.
  intros He H. inversion H; subst.
  - destruct (parse_token_request r) as [q|e] eqn:Hq; [by destruct H0; eauto|].
    destruct (token_inr_request r e Hq) as [<- <-]. eapply decide_error; [|by eapply parse_token_inr].
    rewrite handle_token by done. unfold token_endpoint. by rewrite Hq.
  - destruct (parse_token_request r) as [q|e] eqn:Hq.
    + exists s, (InvalidRequest "unknown grant type"). split; [|auto].
      rewrite handle_token by done. unfold token_endpoint. rewrite Hq.
      pose proof (parse_token_inl r q Hq) as (_ & _ & -> & _).
      destruct (known_grant_type (body_param r "grant_type")) eqn:Eg; [|done].
      destruct H0. by apply known_grants.
    + destruct (token_inr_request r e Hq) as [<- <-]. eapply decide_error; [|by eapply parse_token_inr].
      rewrite handle_token by done. unfold token_endpoint. by rewrite Hq.
  - exists s, (InvalidClient "unknown client"). split; [apply unauthenticated_answer; auto|]. auto.
  - destruct (token_grant ev s r id _ H0) as (q & c & _ & _ & _ & Hu & Hp & _ & _ & _ & _ & Hh).
    exists s, (AccessDenied ""). split; [|auto]. rewrite Hh. change (seqb "password" "password") with true. cbv iota.
    unfold handle_password. rewrite Hu, Hp. apply not_password in H1. by rewrite H1.
  - destruct (token_grant ev s r id _ H0) as (q & c & _ & _ & _ & Hu & Hp & _ & _ & Hs & _ & Hh).
    exists s, (InvalidScope ""). split; [|auto]. rewrite Hh. change (seqb "password" "password") with true. cbv iota.
    unfold handle_password. rewrite Hu, Hp, Hs. apply password_spec in H1. apply not_allowed in H2. by rewrite H1, H2.
  - destruct (token_grant ev s r id _ H0) as (q & c & _ & Hid & Hc & _ & _ & _ & _ & _ & _ & Hh).
    exists s, (InvalidClient "unknown client"). split; [|auto]. rewrite Hh.
    change (seqb "client_credentials" "password") with false. change (seqb "client_credentials" "client_credentials") with true. cbv iota.
    unfold handle_client_credentials. rewrite Hid, Hc. by rewrite (H1 c Hc).
  - destruct (token_grant ev s r id _ H0) as (q & c' & _ & Hid & Hc & _ & _ & _ & _ & Hs & _ & Hh).
    exists s, (InvalidScope ""). split; [|auto]. rewrite Hh.
    change (seqb "client_credentials" "password") with false. change (seqb "client_credentials" "client_credentials") with true. cbv iota.
    unfold handle_client_credentials. rewrite Hid, H1, H2, Hs. apply not_allowed in H3. by rewrite H3.
  - destruct (token_grant ev s r id _ H0) as (q & c & _ & Hid & Hc & _ & _ & _ & Hco & _ & _ & Hh).
    change (if seqb "authorization_code" "password" then _ else _) with (handle_code ev s q) in Hh.
    unfold handle_code in Hh. rewrite Hco in Hh. rewrite authentic_spec in H1.
    destruct (parse_token _ _) as [t|msg] eqn:Et; [by destruct H1; eauto|].
    exists s, (InvalidRequest msg). split; [done|]. eauto.
  - destruct (token_grant ev s r id _ H0) as (q & c & _ & Hid & Hc & _ & _ & _ & Hco & _ & Hru & Hh).
    change (if seqb "authorization_code" "password" then _ else _) with (handle_code ev s q) in Hh.
    unfold handle_code in Hh. rewrite Hco in Hh. apply authentic_spec in H1 as (t & Ht). rewrite Ht in Hh. cbv zeta in Hh.
    destruct (sv_codes s !! signature_string t) as [d|] eqn:Ed; [|eexists _, _; split; [exact Hh|auto]].
    destruct (cd_used d) eqn:Eu; [eexists _, _; split; [exact Hh|auto]|].
    destruct (cd_expires_at d <? ev_now_check ev)%Z eqn:Ex; [eexists _, _; split; [exact Hh|auto]|].
    destruct (seqb (cd_client_id d) (tq_client_id q)) eqn:Ec; cbn [negb] in Hh; [|eexists _, _; split; [exact Hh|auto]].
    destruct (seqb (cd_redirect_uri d) (tq_redirect_uri q)) eqn:Er; cbn [negb] in Hh; [|eexists _, _; split; [exact Hh|auto]].
    destruct H2. exists d. split; [exists (signature_string t); split; [by apply names_parsed|done]|].
    apply seqb_true in Ec, Er. rewrite Hru, Er, Ec. split; [done|]. split; [lia|done].
  - destruct (token_grant ev s r id _ H0) as (q & c & _ & Hid & Hc & _ & _ & Hrt & _ & _ & _ & Hh).
    change (if seqb "refresh_token" "password" then _ else _) with (handle_refresh ev s q) in Hh.
    unfold handle_refresh in Hh. rewrite Hrt in Hh. rewrite authentic_spec in H1.
    destruct (parse_token _ _) as [t|msg] eqn:Et; [by destruct H1; eauto|].
    exists s, (InvalidRequest msg). split; [done|]. eauto.
  - destruct (token_grant ev s r id _ H0) as (q & c & _ & Hid & Hc & _ & _ & Hrt & _ & _ & _ & Hh).
    change (if seqb "refresh_token" "password" then _ else _) with (handle_refresh ev s q) in Hh.
    unfold handle_refresh in Hh. rewrite Hrt in Hh. apply authentic_spec in H1 as (t & Ht). rewrite Ht in Hh. cbv zeta in Hh.
    destruct (sv_refresh s !! signature_string t) as [d|] eqn:Ed; [|eexists _, _; split; [exact Hh|auto]].
    destruct (cd_expires_at d <? ev_now_check ev)%Z eqn:Ex; [eexists _, _; split; [exact Hh|auto]|].
    destruct (seqb (cd_client_id d) (tq_client_id q)) eqn:Ec; cbn [negb] in Hh; [|eexists _, _; split; [exact Hh|auto]].
    destruct (H2 d). split; [exists (signature_string t); split; [by apply names_parsed|done]|].
    apply seqb_true in Ec. rewrite Ec. split; [lia|done].
  - destruct (token_grant ev s r id _ H0) as (q & c & _ & Hid & Hc & _ & _ & Hrt & _ & Hs & _ & Hh).
    change (if seqb "refresh_token" "password" then _ else _) with (handle_refresh ev s q) in Hh.
    destruct H1 as ((sg & Hn & Hd) & Hx & Hcl). apply names_spec in Hn as (t & Ht & ->).
    unfold handle_refresh in Hh. unfold server_secret in Ht. rewrite Hrt, Ht in Hh. cbv zeta in Hh. rewrite Hd in Hh.
    assert ((cd_expires_at d <? ev_now_check ev)%Z = false) as Hx' by lia. rewrite Hx', Hcl, <- Hid, seqb_refl in Hh. cbn [negb] in Hh.
    rewrite Hs in Hh. destruct (scope_empty (parse_scope (body_param r "scope"))) eqn:Ee.
    { destruct H2. intros x Hi. apply scope_empty_spec in Ee. by rewrite Ee in Hi. }
    rewrite covers_spec in H2. destruct (scope_includes (cd_scope d) (parse_scope (body_param r "scope"))) eqn:Ei; [by destruct H2|].
    eexists _, _. split; [exact Hh|auto].
Qed.
Lemma complete_of r q : endpoint r "token" -> parse_token_request r = inl q ->
  known_grant_type (tq_grant_type q) = true -> complete_token_request r.
Proof.
  intros He Hq Hg. pose proof (parse_token_inl r q Hq) as (_ & _ & Hgt & _). rewrite Hgt in Hg. apply known_grants in Hg.
  split; [done|]. split; [eauto|done].
Qed.
Lemma decided_token_refusal ev s r s' e : endpoint r "token" -> handle ev s r = Done s' (OError e) ->
  token_refusal ev s r (e_status e) (e_name e).
Proof.
  intros He Hh. pose proof Hh as Hh0. rewrite handle_token in Hh by done. unfold token_endpoint in Hh.
  destruct (parse_token_request r) as [q|e'] eqn:Hq.
  2:{ injection Hh as _ <-. destruct (token_inr_request r e' Hq) as [-> ->]. apply refuse_malformed. intros (q & Hx). by rewrite Hx in Hq. }
  pose proof (parse_token_inl r q Hq) as (_ & _ & Hgt & _).
  destruct (known_grant_type (tq_grant_type q)) eqn:Eg; cbn [negb] in Hh.
  2:{ injection Hh as _ <-. apply refuse_grant_type. rewrite <- known_grants, <- Hgt, Eg. done. }
  pose proof (complete_of r q He Hq Eg) as Hcm. clear Hh.
  destruct (token_client s r q Hq) as [(c & Hf & Hc & Ho)|(Hu & _)].
  2:{ rewrite unauthenticated_answer in Hh0 by auto. injection Hh0 as _ <-. by apply refuse_client. }
  set (id := tq_client_id q) in *.
  pose proof Hcm as (_ & _ & Hg). unfold grant_types in Hg.
  destruct Hg as [Hg|[Hg|[Hg|[Hg|[]]]]];
   (assert (Hfor : token_request_for s r id (body_param r "grant_type")) by (split; [done|]; split; done);
    rewrite <- Hg in Hfor; destruct (token_grant ev s r id _ Hfor) as (q' & c' & Hq' & Hid & Hc' & Hus & Hpw & Hrt & Hco & Hs & Hru & Hh);
    rewrite Hh0 in Hh; rewrite Hq in Hq'; injection Hq' as <-).
  - change (if seqb "password" "password" then _ else _) with (handle_password ev s q) in Hh.
    unfold handle_password in Hh. rewrite Hus, Hpw, Hs in Hh.
    destruct (owner_ok s (body_param r "username") (body_param r "password")) eqn:Eo; cbn [negb] in Hh.
    2:{ injection Hh as _ ->. apply not_password in Eo. by eapply refuse_password. }
    destruct (scope_includes _ _) eqn:Es; cbn [negb] in Hh.
    2:{ injection Hh as _ ->. apply not_allowed in Es. apply password_spec in Eo. by eapply refuse_password_scope. }
    by destruct (issue_tokens _ _ _ _ _ _ _) as [[]|].
  - change (if seqb "client_credentials" "password" then _ else _) with (handle_client_credentials ev s q) in Hh.
    unfold handle_client_credentials in Hh. fold id in Hh. rewrite Hc, Hs in Hh.
    destruct (en_confidential c) eqn:Ec; cbn [negb] in Hh.
    2:{ injection Hh as _ ->. eapply refuse_public; [done|]. intros c2 H2. congruence. }
    destruct (scope_includes _ _) eqn:Es; cbn [negb] in Hh.
    2:{ injection Hh as _ ->. apply not_allowed in Es. exact (refuse_client_scope ev s r id c Hfor Hc Ec Es). }
    by destruct (issue_tokens _ _ _ _ _ _ _) as [[]|].
  - change (if seqb "authorization_code" "password" then _ else _) with (handle_code ev s q) in Hh.
    unfold handle_code in Hh. rewrite Hco in Hh.
    assert (Hno : ~ authentic s (body_param r "code") \/ authentic s (body_param r "code")).
    { rewrite authentic_spec. destruct (parse_token _ _) as [t|m]; [right; eauto|left]. by intros (t & ?). }
    destruct Hno as [Hno|Hyes].
    + pose proof Hno as Hn. rewrite authentic_spec in Hn. destruct (parse_token _ _) as [t|m]; [by destruct Hn; eauto|].
      injection Hh as _ ->. by eapply refuse_code_text.
    + assert (Hred : redeemable ev s r id -> False).
      { intros (d & (sg & Hn & Hd) & Hu & Hx & Hcl & Hr). apply names_spec in Hn as (t & Ht & ->). unfold server_secret in Ht.
        rewrite Ht in Hh. cbv zeta in Hh. rewrite Hd, Hu in Hh. assert ((cd_expires_at d <? ev_now_check ev)%Z = false) as Hx' by lia.
        rewrite Hx' in Hh. rewrite Hru in Hr. injection Hr as Hr. rewrite Hcl, Hr in Hh. fold id in Hh.
        rewrite !seqb_refl in Hh. cbn [negb] in Hh. by destruct (issue_tokens _ _ _ _ _ _ _) as [[]|]. }
      pose proof Hyes as (t & Ht)%authentic_spec. rewrite Ht in Hh. cbv zeta in Hh.
      assert (e_status e = 400%Z /\ e_name e = "invalid_grant") as [-> ->].
      { symmetry in Hh. split_match Hh; first [discriminate Hh|by injection Hh as _ <-]. }
      by eapply refuse_code.
  - change (if seqb "refresh_token" "password" then _ else _) with (handle_refresh ev s q) in Hh.
    unfold handle_refresh in Hh. rewrite Hrt in Hh.
    destruct (parse_token (cfg_secret (sv_config s)) (body_param r "refresh_token")) as [t|m] eqn:Et.
    2:{ injection Hh as _ ->. eapply refuse_refresh_text; [done|]. rewrite authentic_spec. intros (t & Ht). congruence. }
    cbv zeta in Hh. assert (Hyes : authentic s (body_param r "refresh_token")) by (apply authentic_spec; eauto).
    assert (Hstored : forall d, refreshable ev s r id d -> sv_refresh s !! signature_string t = Some d /\
       (cd_expires_at d <? ev_now_check ev)%Z = false /\ cd_client_id d = id).
    { intros d ((sg & Hn & Hd) & Hx & Hcl). apply names_spec in Hn as (t' & Ht & ->). unfold server_secret in Ht.
      rewrite Et in Ht. injection Ht as <-. split; [done|]. split; [lia|done]. }
    destruct (sv_refresh s !! signature_string t) as [d|] eqn:Ed.
    2:{ injection Hh as _ ->. eapply refuse_refresh; [done|done|]. intros d Hd. by destruct (Hstored d Hd). }
    destruct (cd_expires_at d <? ev_now_check ev)%Z eqn:Ex.
    { injection Hh as _ ->. eapply refuse_refresh; [done|done|]. intros d' Hd. destruct (Hstored d' Hd) as ([= <-] & ? & _). congruence. }
    destruct (seqb (cd_client_id d) (tq_client_id q)) eqn:Ec; cbn [negb] in Hh.
    2:{ injection Hh as _ ->. apply seqb_false in Ec. eapply refuse_refresh; [done|done|]. intros d' Hd. by destruct (Hstored d' Hd) as ([= <-] & _ & ?). }
    apply seqb_true in Ec.
    assert (Href : refreshable ev s r id d).
    { split; [exists (signature_string t); split; [by apply names_parsed|done]|]. split; [lia|done]. }
    rewrite Hs in Hh. destruct (scope_includes (cd_scope d) _) eqn:Es; cbn [negb] in Hh.
    { by destruct (issue_tokens _ _ _ _ _ _ _) as [[]|]. }
    injection Hh as _ ->. eapply refuse_refresh_scope; [done|exact Href|]. rewrite covers_spec.
    destruct (scope_empty _); [|by rewrite Es].
    exfalso. apply not_true_iff_false in Es. apply Es. apply covers_spec. intros x. done.
Qed.
Lemma c84_token : forall ev s r, endpoint r "token" -> refuses_with ev s r (token_refusal ev s r).
Proof.
  intros ev s r He. apply refuses_from.
  - apply (found ev s r "token"); [cbn; auto|done].
  - intros code name. by apply token_refusal_decided.
  - intros s' e Hh _. by eapply decided_token_refusal.
Qed.

(** ** The introspection and revocation endpoints *)
Lemma lookup_inr_request r e : parse_lookup_request r = inr e -> e_status e = 400%Z /\ e_name e = "invalid_request".
Proof. unfold parse_lookup_request. intros H. cbv zeta in H. split_match H; by injection H as <-. Qed.
Lemma foreign_spec s str id t : parse_token (cfg_secret (sv_config s)) str = inl t ->
  foreign_token s str id <->
  (exists d, (sv_access s !! signature_string t = Some d \/ sv_refresh s !! signature_string t = Some d) /\ cd_client_id d <> id).
Proof.
  intros Ht. split.
  - intros (d & [(sg & Hn & Hd)|(sg & Hn & Hd)] & Hc); apply names_spec in Hn as (t' & Ht' & ->); unfold server_secret in Ht';
    rewrite Ht in Ht'; injection Ht' as <-; eauto.
  - intros (d & [Hd|Hd] & Hc); exists d; (split; [|done]); [left|right]; exists (signature_string t); (split; [by apply names_parsed|done]).
Qed.
(** The part the two endpoints share. *)
Lemma prologue_refusal s r :
  match lookup_prologue s r with
  | inr e => lookup_refusal s r (e_status e) (e_name e) /\
      forall code name, lookup_refusal s r code name -> code = e_status e /\ name = e_name e
  | inl (q, t) => parse_token (cfg_secret (sv_config s)) (body_param r "token") = inl t /\
      complete_lookup_request r /\ from_client s r (lq_client_id q) /\
      forall code name, lookup_refusal s r code name ->
        code = 401%Z /\ name = "invalid_client" /\ foreign_token s (body_param r "token") (lq_client_id q)
  end.
Proof.
  unfold lookup_prologue. destruct (parse_lookup_request r) as [q|e] eqn:Hq.
  2:{ destruct (lookup_inr_request r e Hq) as [-> ->].
      split; [apply refuse_lookup_malformed; intros (q & Hx); unfold parse_introspection_request in Hx; congruence|].
      intros code name H. inversion H; subst; try done; exfalso; unfold complete_lookup_request, parse_introspection_request in *;
        try (match goal with A : (exists _, _) /\ _ |- _ => destruct A as ((? & ?) & _) end); congruence. }
  pose proof (parse_lookup_inl r q Hq) as (_ & _ & _ & Htok & Hhint & _). rewrite Hhint.
  assert (Hno : ~ ~ exists q, parse_introspection_request r = inl q) by (intros Hx; destruct Hx; eauto).
  destruct (negb (seqb (body_param r "token_type_hint") "") && negb (known_token_type (body_param r "token_type_hint"))) eqn:Eh.
  { assert (Hni : ~ In (body_param r "token_type_hint") [""; "access_token"; "refresh_token"]).
    { intros Hi. apply known_hints in Hi. congruence. }
    split; [by eapply refuse_lookup_hint|]. intros code name H. inversion H; subst; try done; unfold complete_lookup_request in *; tauto. }
  assert (Hh : In (body_param r "token_type_hint") [""; "access_token"; "refresh_token"]) by (by apply known_hints).
  assert (Hcm : complete_lookup_request r) by (split; [eauto|done]).
  destruct (lookup_client s r q Hq) as [(c & Hf & Hc & Ho)|(Hu & Hc)].
  - rewrite Hc, Ho. cbn [negb]. rewrite Htok.
    destruct (parse_token (cfg_secret (sv_config s)) (body_param r "token")) as [t|m] eqn:Et.
    + split; [done|]. split; [done|]. split; [done|].
      intros code name H. inversion H; subst; try tauto.
      * by apply H1 in Hf.
      * destruct H2. apply authentic_spec. eauto.
      * rewrite (from_client_fun _ _ _ _ Hf H1). done.
    + split; [eapply (refuse_lookup_text s r); [done|exact Hf|]; rewrite authentic_spec; intros (t & Ht); congruence|].
      intros code name H. inversion H; subst; try tauto; try done.
      * by apply H1 in Hf.
      * destruct H2 as (d & [(sg & Hn & _)|(sg & Hn & _)] & _); apply names_spec in Hn as (t & Ht & _); unfold server_secret in Ht; congruence.
  - assert (Hr : lookup_refusal s r 401 "invalid_client") by (by apply refuse_lookup_client).
    assert (Hrest : forall code name, lookup_refusal s r code name -> code = 401%Z /\ name = "invalid_client").
    { intros code name H. inversion H; subst; try tauto; try done. by apply Hu in H1. }
    destruct (sv_clients s !! lq_client_id q) as [c|]; [rewrite Hc; cbn [negb]|]; split; assumption.
Qed.
Lemma lookup_refuses ev s r : endpoint r "introspect" \/ endpoint r "revoke" -> refuses_with ev s r (lookup_refusal s r).
Proof.
  intros He.
  assert (Hh : (forall s', handle ev s r <> Done s' ONotFound) /\
    (handle ev s r = introspection_endpoint s r \/ handle ev s r = revocation_endpoint s r)).
  { destruct He as [He|He].
    - split; [apply (found ev s r "introspect"); [cbn; auto|done]|]. left. by apply handle_introspect.
    - split; [apply (found ev s r "revoke"); [cbn; auto|done]|]. right. by apply handle_revoke. }
  destruct Hh as [Hn Hh]. pose proof (prologue_refusal s r) as Hp. pose proof (prologue_inr s r) as Hpl.
  unfold introspection_endpoint, revocation_endpoint in Hh.
  destruct (lookup_prologue s r) as [[q t]|e].
  - destruct Hp as (Ht & Hcm & Hf & Hr).
    assert (Hforeign : foreign_token s (body_param r "token") (lq_client_id q) -> decided ev s r 401 "invalid_client").
    { intros Hx. apply (foreign_spec _ _ _ t Ht) in Hx as (d & Hd & Hc). cbv zeta in Hh. apply seqb_false in Hc.
      destruct Hh as [Hh|Hh]; (destruct (sv_access s !! signature_string t) as [a|] eqn:Ea;
       [destruct (seqb (cd_client_id a) (lq_client_id q)) eqn:Eca; cbn [negb] in Hh|]);
       try (eexists _, _; split; [exact Hh|auto]; done).
      all: destruct Hd as [Hd|Hd]; [congruence|].
      all: change (sv_refresh (set_access s _)) with (sv_refresh s) in Hh; rewrite Hd, Hc in Hh; cbn [negb] in Hh;
           eexists _, _; split; [exact Hh|auto]. }
    apply refuses_from; [done| |].
    + intros code name H. destruct (Hr code name H) as (-> & -> & Hx). by apply Hforeign.
    + intros s' e He' _. cbv zeta in Hh.
      assert (Hx : e_status e = 401%Z /\ e_name e = "invalid_client" /\
        exists d, (sv_access s !! signature_string t = Some d \/ sv_refresh s !! signature_string t = Some d) /\ cd_client_id d <> lq_client_id q).
      { rewrite He' in Hh. destruct Hh as [Hh|Hh]; symmetry in Hh; (destruct (sv_access s !! signature_string t) as [a|] eqn:Ea;
          [destruct (seqb (cd_client_id a) (lq_client_id q)) eqn:Eca; cbn [negb] in Hh|]);
          try (injection Hh as _ <-; apply seqb_false in Eca; split; [done|]; split; [done|]; by eauto);
          change (sv_refresh (set_access s _)) with (sv_refresh s) in Hh;
          (destruct (sv_refresh s !! signature_string t) as [f|] eqn:Ef; [|discriminate Hh]);
          (destruct (seqb (cd_client_id f) (lq_client_id q)) eqn:Ecf; cbn [negb] in Hh; [discriminate Hh|]);
          injection Hh as _ <-; apply seqb_false in Ecf; (split; [done|]); (split; [done|]); by eauto. }
      destruct Hx as (-> & -> & Hx). eapply (refuse_lookup_owner s r); [done|exact Hf|]. by apply (foreign_spec _ _ _ t Ht).
  - destruct Hp as [Hp1 Hp2].
    assert (Hh' : handle ev s r = Done s (OError e)) by (by destruct Hh).
    apply refuses_from; [done| |].
    + intros code name H. destruct (Hp2 code name H) as [-> ->]. exists s, e. split; [done|]. split; [by apply Hpl|done].
    + intros s' e' He' _. rewrite Hh' in He'. by injection He' as _ <-.
Qed.
Lemma c84_introspect : forall ev s r, endpoint r "introspect" -> refuses_with ev s r (lookup_refusal s r).
Proof. intros ev s r He. apply lookup_refuses. by left. Qed.
Lemma c84_revoke : forall ev s r, endpoint r "revoke" -> refuses_with ev s r (lookup_refusal s r).
Proof. intros ev s r He. apply lookup_refuses. by right. Qed.

(** ** The authorization endpoint *)
Lemma authorization_inr_request r e : parse_authorization_request r = inr e -> e_status e = 400%Z /\ e_name e = "invalid_request".
Proof. unfold parse_authorization_request. intros H. split_match H; by injection H as <-. Qed.
Lemma c84_authorize : forall ev s r, endpoint r "authorize" -> refuses_with ev s r (authorization_refusal s r).
Proof.
  intros ev s r He. pose proof (handle_authorize ev s r He) as Hh. unfold authorization_endpoint in Hh.
  assert (Hn := found ev s r "authorize" ltac:(cbn; auto) He).
  destruct (parse_authorization_request r) as [q|e] eqn:Hq.
  2:{ destruct (authorization_inr_request r e Hq) as [E1 E2].
      assert (Hp := parse_authorization_inr r e Hq).
      apply refuses_from; [done| |].
      - intros code name H. assert (code = 400%Z /\ name = "invalid_request") as [-> ->].
        { inversion H; subst; try done. congruence. }
        rewrite <- E1, <- E2. by eapply decide_error.
      - intros s' e' He' _. rewrite Hh in He'. injection He' as _ <-. rewrite E1, E2.
        apply refuse_authorization_malformed. intros (q & Hx). congruence. }
  pose proof (parse_authorization_inl r q Hq) as (Hmeth & (f & Hf & H1 & _ & _ & H3 & _ & H4 & _) & Hne & Hpu).
  assert (HF : forall k, form_param r k = vget (f_form f) k) by (intros k; unfold form_param; by rewrite Hf).
  assert (Hkn : In (form_param r "response_type") ["token"; "code"] <-> known_response_type (aq_response_type q) = true).
  { rewrite HF, <- H1. unfold known_response_type, TokenResponseType, CodeResponseType. rewrite orb_true_iff, !seqb_true. cbn [In].
    split; [intros [?|[?|[]]]; auto|intros [?|?]; auto]. }
  destruct (known_response_type (aq_response_type q)) eqn:Ek; cbn [negb] in Hh.
  2:{ apply refuses_from; [done| |].
      - intros code name H. assert (code = 400%Z /\ name = "invalid_request") as [-> ->].
        { inversion H; subst; try done. match goal with A : In _ _ |- _ => apply Hkn in A; discriminate A end. }
        eexists _, _. split; [exact Hh|auto].
      - intros s' e He' _. rewrite Hh in He'. injection He' as _ <-. apply refuse_response_type. by rewrite Hkn. }
  assert (Hin : In (form_param r "response_type") ["token"; "code"]) by (by apply Hkn).
  assert (Hid : form_param r "client_id" = aq_client_id q) by (by rewrite HF).
  assert (Hru : query_unescape (form_param r "redirect_uri") = Some (aq_redirect_uri q)) by (by rewrite HF).
  destruct (sv_clients s !! aq_client_id q) as [c|] eqn:Ec.
  2:{ apply refuses_from; [done| |].
      - intros code name H. assert (code = 401%Z /\ name = "invalid_client") as [-> ->].
        { inversion H; subst; try done.
          - match goal with A : ~ exists _, _ |- _ => destruct A; eauto end.
          - rewrite Hid in *. congruence. }
        eexists _, _. split; [exact Hh|auto].
      - intros s' e He' _. rewrite Hh in He'. injection He' as _ <-. eapply refuse_unknown_client; [exact Hq|done|by rewrite Hid]. }
  destruct (seqb (en_redirect_uri c) (aq_redirect_uri q)) eqn:Er; cbn [negb] in Hh.
  - apply seqb_true in Er. apply refuses_from; [done| |].
    + intros code name H. exfalso. inversion H; subst; try tauto.
      * match goal with A : ~ exists _, _ |- _ => destruct A; eauto end.
      * rewrite Hid in *. congruence.
      * rewrite Hid, Hru in *. congruence.
    + intros s' e He' Hp. exfalso. rewrite He' in Hh. destruct (plain_error_shape e Hp) as (Hx & _).
      symmetry in Hh. unfold handle_implicit, handle_code_authorization in Hh. cbv zeta in Hh.
      split_match Hh; try discriminate Hh; injection Hh as _ <-; cbn in Hx; congruence.
  - apply seqb_false in Er. apply refuses_from; [done| |].
    + intros code name H. assert (code = 400%Z /\ name = "invalid_request") as [-> ->].
      { inversion H; subst; try done. rewrite Hid in *. congruence. }
      eexists _, _. split; [exact Hh|auto].
    + intros s' e He' _. rewrite Hh in He'. injection He' as _ <-.
      apply (refuse_redirect_uri s r c); [by rewrite Hid|]. rewrite Hru. congruence.
Qed.
Lemma c84_redirected : forall ev s r c name, complete_authorization s r -> rq_method r = "POST" ->
  sv_clients s !! form_param r "client_id" = Some c -> redirected_refusal s r name ->
  exists w, serves ev s r w /\ redirected_error r (en_redirect_uri c) name w.
Proof.
  intros ev s r c name Hc Hm Hcl Hr.
  destruct (authorization_past_client ev s r Hc Hm) as (q & Hq & Hsc & Hid & Hh).
  pose proof Hc as (_ & _ & Ht & c' & Hcl' & Hu). rewrite Hcl in Hcl'. injection Hcl' as <-.
  pose proof (parse_authorization_inl r q Hq) as (_ & (f & Hf & H1 & _ & _ & _ & _ & H4 & H5) & Hne & Hpu).
  assert (HF : forall k, form_param r k = vget (f_form f) k) by (intros k; unfold form_param; by rewrite Hf).
  assert (Huri : aq_redirect_uri q = en_redirect_uri c) by (rewrite HF, H4 in Hu; congruence).
  assert (Hst : aq_state q = form_param r "state") by (by rewrite HF).
  assert (Hrt : aq_response_type q = form_param r "response_type") by (by rewrite HF).
  assert (Hfrag : seqb (form_param r "response_type") "token" = if decide (form_param r "response_type" = "token") then true else false).
  { destruct (decide _) as [->|Hx]; [done|]. by apply seqb_false. }
  assert (Hb : exists b, (b = InvalidScope "" \/ b = AccessDenied "") /\ e_name b = name /\
    handle ev s r = Done s (OError (set_error_redirect b (aq_redirect_uri q) (aq_state q) (seqb (form_param r "response_type") "token")))).
  { unfold handle_implicit, handle_code_authorization in Hh. rewrite Hsc in Hh.
    inversion Hr as [Hx|Hx1 Hx2]; subst name.
    - apply not_allowed in Hx. rewrite Hx in Hh. cbn [negb] in Hh. exists (InvalidScope ""). split; [by left|]. split; [done|].
      rewrite Hh. by destruct (seqb _ "token").
    - apply covers_spec in Hx1. apply not_password in Hx2. rewrite Hx1, Hx2 in Hh. cbn [negb] in Hh. exists (AccessDenied "").
      split; [by right|]. split; [done|]. rewrite Hh. by destruct (seqb _ "token"). }
  destruct Hb as (b & Hb & Hname & Hd). clear Hh.
  set (e := set_error_redirect b (aq_redirect_uri q) (aq_state q) (seqb (form_param r "response_type") "token")) in *.
  destruct (redirect_location_some (aq_redirect_uri q) (error_map e) (seqb (aq_response_type q) "token") Hpu) as [loc Hl].
  exists (sent_redirect loc). split.
  - exists s. unfold serve_http. rewrite Hd. unfold write_outcome.
    rewrite (redirect_error_written q e loc); [done| |done|done]. exists b. split; [done|]. unfold e. by rewrite Hrt.
  - assert (Hmap : error_map e = put "state" (form_param r "state") (put "error" name ∅)).
    { unfold e, error_map. rewrite <- Hst. cbn [set_error_redirect e_name e_description e_state e_scope e_uri e_realm].
      rewrite Hname. destruct Hb as [-> | ->]; cbn [e_description e_scope e_uri e_realm InvalidScope AccessDenied mk_error]; done. }
    exists (error_map e). rewrite Hmap. unfold put.
    assert (Hnn : seqb name "" = false) by (by rewrite <- Hname; destruct Hb as [-> | ->]). rewrite Hnn.
    split; [|split; [|split]].
    + destruct (seqb (form_param r "state") ""); [by rewrite lookup_insert|]. rewrite lookup_insert_ne by done. by rewrite lookup_insert.
    + intros x. destruct (seqb (form_param r "state") "") eqn:Es.
      * apply seqb_true in Es. rewrite lookup_insert_ne, lookup_empty by done. rewrite Es. split; [done|by intros [-> ?]].
      * apply seqb_false in Es. rewrite lookup_insert. split; [intros [= <-]; done|by intros [-> _]].
    + intros k K1 K2. destruct (seqb (form_param r "state") ""); rewrite ?lookup_insert_ne, lookup_empty by done; done.
    + rewrite <- Huri, <- Hfrag, <- Hrt. apply write_redirect_sent. rewrite Hmap in Hl. unfold put in Hl. by rewrite Hnn in Hl.
Qed.

(** ** One error only *)
Lemma error_document_fun w code name code' name' :
  error_document w code name -> error_document w code' name' -> code = code' /\ name = name'.
Proof.
  intros (Hs & _ & o & (Hj & Hnd) & Hi) (Hs' & _ & o' & (Hj' & _) & Hi'). split; [congruence|].
  rewrite Hj in Hj'. injection Hj' as <-. clear -Hnd Hi Hi'. induction o as [|[k v] o IH]; [done|].
  cbn [map fst] in Hnd. inversion Hnd as [|? ? Hn Hnd']; subst.
  destruct Hi as [[= -> ->]|Hi], Hi' as [E|Hi'].
  - congruence.
  - destruct Hn. apply elem_of_list_In. by eapply (in_map fst) in Hi'.
  - injection E as -> ->. destruct Hn. apply elem_of_list_In. by eapply (in_map fst) in Hi.
  - by apply IH.
Qed.
Lemma c84_one : forall ev s r refusal code name code' name', refuses_with ev s r refusal ->
  refusal code name -> refusal code' name' -> code = code' /\ name = name'.
Proof.
  intros ev s r refusal code name code' name' (H & _) H1 H2.
  destruct (H _ _ H1) as (w & (s1 & Hw) & Hd). destruct (H _ _ H2) as (w' & (s2 & Hw') & Hd').
  rewrite Hw in Hw'. injection Hw' as _ <-. by eapply error_document_fun.
Qed.
