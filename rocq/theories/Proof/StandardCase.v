(** Concrete cases for C89 to C96. *)
From Verif.Model Require Import Server.
From Verif.Spec Require Import TokenSpec ScopeSpec WireSpec RequestSpec ServerSpec Cases RefusalSpec RefusalCases FormSpec
  StandardSpec StandardCases.
From Verif.Proof Require Import StrFacts WireFacts ServerFacts Steps RequestParse ServerProofs GrantProofs MediaProofs FormProofs
  CaseProofs RefusalProofs RefusalCase StandardProofs.

Definition nonsense (path : string) : request := lookup_request path case_auth "nonsense".
Lemma nonsense_text : ~ authentic case_server "nonsense".
Proof. rewrite authentic_spec. intros [t H]. vm_compute in H. discriminate H. Qed.
Lemma case_lookup path : complete_lookup_request (nonsense path) /\ from_client case_server (nonsense path) "c1".
Proof.
  split; [split; [eexists; vm_compute; reflexivity|left; vm_compute; reflexivity]|].
  apply case_from; vm_compute; reflexivity.
Qed.
Lemma case_foreign : 
  let r := lookup_request "/oauth2/introspect" case_auth2 (access_of step2) in
  complete_introspection r /\ from_client (after step2) r "c2" /\ foreign_token (after step2) (body_param r "token") "c2".
Proof.
  cbv zeta. split; [split; [apply (case_endpoint _ _ "introspect")|split; [eexists; vm_compute; reflexivity|left; vm_compute; reflexivity]]|].
  split; [apply case_from2; vm_compute; reflexivity|].
  eapply foreign_spec; [vm_compute; reflexivity|]. eexists. split; [left; vm_compute; reflexivity|vm_compute; discriminate].
Qed.
Lemma c89_revoke_refuted : exists ev s r id w, complete_revocation r /\ from_client s r id /\
  ~ authentic s (body_param r "token") /\ serves ev s r w /\ error_document w 400 "invalid_request".
Proof.
  destruct (case_lookup "/oauth2/revoke") as [Hc Hf]. assert (He : endpoint (nonsense "/oauth2/revoke") "revoke") by apply (case_endpoint _ _ "revoke").
  assert (Ht : ~ authentic case_server (body_param (nonsense "/oauth2/revoke") "token")).
  { replace (body_param _ "token") with "nonsense" by (vm_compute; reflexivity). exact nonsense_text. }
  destruct (c84_revoke (case_env 1 rand1) case_server _ He) as [H _].
  destruct (H 400%Z "invalid_request") as (w & Hw & Hd); [by apply (refuse_lookup_text _ _ "c1")|].
  exists (case_env 1 rand1), case_server, (nonsense "/oauth2/revoke"), "c1", w. done.
Qed.
Lemma c89_introspect_refuted : (exists ev s r id w, complete_introspection r /\ from_client s r id /\
  ~ authentic s (body_param r "token") /\ serves ev s r w /\ error_document w 400 "invalid_request") /\
  (exists ev s r id w, complete_introspection r /\ from_client s r id /\
  foreign_token s (body_param r "token") id /\ serves ev s r w /\ error_document w 401 "invalid_client").
Proof.
  split.
  - destruct (case_lookup "/oauth2/introspect") as [Hc Hf].
    assert (He : endpoint (nonsense "/oauth2/introspect") "introspect") by apply (case_endpoint _ _ "introspect").
    assert (Ht : ~ authentic case_server (body_param (nonsense "/oauth2/introspect") "token")).
    { replace (body_param _ "token") with "nonsense" by (vm_compute; reflexivity). exact nonsense_text. }
    destruct (c84_introspect (case_env 1 rand1) case_server _ He) as [H _].
    destruct (H 400%Z "invalid_request") as (w & Hw & Hd); [by apply (refuse_lookup_text _ _ "c1")|].
    exists (case_env 1 rand1), case_server, (nonsense "/oauth2/introspect"), "c1", w. done.
  - destruct case_foreign as (Hc & Hf & Ht). pose proof (proj1 Hc) as He.
    destruct (c84_introspect (case_env 1002 rand3) (after step2) _ He) as [H _].
    destruct (H 401%Z "invalid_client") as (w & Hw & Hd); [apply (refuse_lookup_owner _ _ "c2"); [exact (proj2 Hc)|done|done]|].
    exists (case_env 1002 rand3), (after step2), (lookup_request "/oauth2/introspect" case_auth2 (access_of step2)), "c2", w. done.
Qed.
Lemma unknown_text s str t : parse_token (cfg_secret (sv_config s)) str = inl t -> sv_access s !! signature_string t = None ->
  sv_refresh s !! signature_string t = None ->
  authentic s str /\ (forall d, ~ access_token s str d /\ ~ refresh_token s str d).
Proof.
  intros Ht Ha Hr. split; [apply authentic_spec; by exists t|]. intros d. split; intros (sg & Hn & Hd); apply names_spec in Hn as (t' & Ht' & ->);
    unfold server_secret in Ht'; rewrite Ht in Ht'; injection Ht' as <-; congruence.
Qed.
(** The code of the history is an authentic token that is neither an access nor a refresh token. *)
Lemma case_unknown :
  let r := lookup_request "/oauth2/introspect" case_auth (code_of step1) in
  complete_introspection r /\ from_client (after step2) r "c1" /\ authentic (after step2) (body_param r "token") /\
  (forall d, ~ access_token (after step2) (body_param r "token") d /\ ~ refresh_token (after step2) (body_param r "token") d).
Proof.
  cbv zeta. split; [split; [apply (case_endpoint _ _ "introspect")|split; [eexists; vm_compute; reflexivity|left; vm_compute; reflexivity]]|].
  split; [apply case_from; vm_compute; reflexivity|].
  eapply unknown_text; vm_compute; reflexivity.
Qed.

(** ** C90 *)
Lemma raw_carries auth body l : (Z.of_nat (String.length body) <= 10485760)%Z -> says body l -> carries (raw_request auth body) l [].
Proof.
  intros Hl Hs. split; [done|]. split; [apply says_pairs; vm_compute; reflexivity|]. right. split; [by left|].
  eexists _, true. split; [reflexivity|]. left. split; [apply content_type_spec; vm_compute; reflexivity|]. done.
Qed.
Lemma case_twice : carries twice_named twice_named_fields [] /\ carries once_named once_named_fields [] /\
  carries two_secrets two_secrets_fields [].
Proof. split_and!; (apply raw_carries; [cbn; lia|apply says_pairs; vm_compute; reflexivity]). Qed.
Lemma case_repetitions : with_repetitions once_named_fields twice_named_fields.
Proof.
  apply (repeats_more once_named_fields [("grant_type", "password"); ("username", "u1")] "username" "u2" [("password", "p1"); ("scope", "read")]).
  - apply repeats_none.
  - by right; left.
Qed.
Lemma case_repeats : repeats_a_parameter twice_named_fields.
Proof. intros H. inversion_clear H as [|? ? _ H1]. inversion_clear H1 as [|? ? H2 _]. apply H2. by left. Qed.
Lemma case_auth_header r : rq_auth r = case_auth -> basic_header r "c1" "s1".
Proof. intros H. apply basic_auth_spec. unfold basic_auth. rewrite H. vm_compute. reflexivity. Qed.
Lemma c90_repeated_refuted : exists ev s r body, endpoint r "token" /\ carries r body [] /\ repeats_a_parameter body /\
  gives_token ev s r.
Proof.
  exists (case_env 1 (rand1 +:+ rand2)), case_server, twice_named, twice_named_fields.
  split; [left; by exists "/oauth2"|]. split; [apply case_twice|]. split; [exact case_repeats|]. eexists _, _, _.
  split; [eexists; vm_compute; reflexivity|]. split; [vm_compute; reflexivity|].
  split; [split; [vm_compute; reflexivity|]|by right; left].
  cbn [map fst]. repeat (constructor; [set_solver|]). constructor.
Qed.
Lemma c90_two_ways_refuted : exists ev s r body, endpoint r "token" /\ carries r body [] /\ authenticates_twice r body /\
  gives_token ev s r.
Proof.
  exists (case_env 1 (rand1 +:+ rand2)), case_server, two_secrets, two_secrets_fields.
  split; [left; by exists "/oauth2"|]. split; [apply case_twice|].
  split; [split; [exists "c1", "s1"; by apply case_auth_header|cbn; tauto]|]. eexists _, _, _.
  split; [eexists; vm_compute; reflexivity|]. split; [vm_compute; reflexivity|].
  split; [split; [vm_compute; reflexivity|]|by right; left].
  cbn [map fst]. repeat (constructor; [set_solver|]). constructor.
Qed.

(** ** C91 *)
Lemma percent_stands : stands_for "c1" "c1" /\ stands_for "50%25" "50%".
Proof. split; apply stands_unescape; vm_compute; reflexivity. Qed.
Lemma percent_header : basic_header percent_request "c1" "50%25".
Proof. apply basic_auth_spec. vm_compute. reflexivity. Qed.
Lemma percent_authenticates x : authenticates percent_server "c1" x <-> x = "50%".
Proof.
  unfold authenticates. change (sv_clients percent_server !! "c1") with (Some percent_client). split.
  - intros (c & Hc & Hx). injection Hc as <-. symmetry. by apply Hx.
  - intros ->. exists percent_client. done.
Qed.
Lemma c91_server_refuted : exists ev s r id secret w, complete_token_request r /\ encoded_basic_header r id secret /\
  authenticates s id secret /\ serves ev s r w /\ error_document w 401 "invalid_client".
Proof.
  assert (Hc : complete_token_request percent_request).
  { split; [apply (case_endpoint _ _ "token")|]. split; [eexists; vm_compute; reflexivity|]. vm_compute. tauto. }
  destruct (c84_token (case_env 1 (rand1 +:+ rand2)) percent_server percent_request (proj1 Hc)) as [H _].
  destruct (H 401%Z "invalid_client") as (w & Hw & Hd).
  { apply refuse_client; [done|]. intros id Hf. apply (c91_verbatim _ _ _ _ _ percent_header) in Hf as [_ Hf].
    apply percent_authenticates in Hf. discriminate Hf. }
  exists (case_env 1 (rand1 +:+ rand2)), percent_server, percent_request, "c1", "50%", w.
  split; [done|]. split; [exists "c1", "50%25"; split; [exact percent_header|exact percent_stands]|].
  split; [by apply percent_authenticates|]. done.
Qed.
Lemma c91_client_refuted : exists uri q r, build_token_request uri q = Some r /\
  ~ encoded_basic_header r (tq_client_id q) (tq_client_secret q).
Proof.
  eexists "https://a.example/oauth2/token", percent_token_request, _. split; [vm_compute; reflexivity|].
  intros (x & y & Hb & _ & Hy). apply basic_auth_spec in Hb. vm_compute in Hb. injection Hb as <- <-.
  apply stands_unescape in Hy. vm_compute in Hy. discriminate Hy.
Qed.
Lemma case_plain_header : exists x y, basic_header (client_request case_auth) x y /\ stands_for x "c1" /\ stands_for y "s1" /\
  unencoded x /\ unencoded y /\ authenticates case_server "c1" "s1".
Proof.
  exists "c1", "s1". split; [by apply case_auth_header|]. split; [apply stands_unescape; vm_compute; reflexivity|].
  split; [apply stands_unescape; vm_compute; reflexivity|]. split; [split; vm_compute; intuition discriminate|].
  split; [split; vm_compute; intuition discriminate|]. exists case_client. split; [vm_compute; reflexivity|done].
Qed.

(** ** C92 *)
Lemma c92_refuted : exists ev s r w o x, endpoint r "token" /\ body_param r "grant_type" = "client_credentials" /\
  serves ev s r w /\ status w = 200%Z /\ json_object w o /\ In ("refresh_token", JStr x) o /\ x <> "".
Proof.
  eexists (case_env 1 (rand1 +:+ rand2)), case_server, (client_request case_auth), _, _, _.
  split; [apply (case_endpoint _ _ "token")|]. split; [vm_compute; reflexivity|].
  split; [eexists; vm_compute; reflexivity|]. split; [vm_compute; reflexivity|].
  split; [split; [vm_compute; reflexivity|]|].
  - cbn [map fst]. repeat (constructor; [set_solver|]). constructor.
  - split; [by right; right; right; left|done].
Qed.

(** ** C93 *)
Lemma case_token_for s r id g : sv_clients s = sv_clients case_server -> endpoint r "token" ->
  (exists q, parse_token_request r = inl q) -> In g grant_types -> body_param r "grant_type" = g ->
  from_client s r id -> token_request_for s r id g.
Proof. intros _ He Hq Hi Hg Hf. split; [split; [done|]; split; [done|]; by rewrite Hg|]. done. Qed.
Lemma case_deviates :
  deviates (case_env 1 rand1) case_server bad_grant 400 "invalid_request" /\
  deviates (case_env 1 rand1) case_server bad_password 403 "access_denied" /\
  deviates (case_env 1 rand1) case_server (client_request case_auth2) 401 "invalid_client" /\
  deviates (case_env 1 rand1) case_server (redeem_request case_auth "nonsense") 400 "invalid_request" /\
  deviates (case_env 1 rand1) case_server (refresh_request case_auth "nonsense") 400 "invalid_request".
Proof.
  split_and!.
  - eapply deviates_grant_type; [vm_compute; reflexivity|]. vm_compute. intuition discriminate.
  - apply (deviates_password _ _ _ "c1").
    + apply case_token_for; [reflexivity|apply (case_endpoint _ _ "token")|eexists; vm_compute; reflexivity|by left|vm_compute; reflexivity|].
      apply case_from; vm_compute; reflexivity.
    + apply not_password. vm_compute. reflexivity.
  - apply (deviates_public _ _ _ "c2").
    + apply case_token_for; [reflexivity|apply (case_endpoint _ _ "token")|eexists; vm_compute; reflexivity|by right; left|vm_compute; reflexivity|].
      apply case_from2; vm_compute; reflexivity.
    + intros c Hc. vm_compute in Hc. injection Hc as <-. reflexivity.
  - apply (deviates_code _ _ _ "c1").
    + apply case_token_for; [reflexivity|apply (case_endpoint _ _ "token")|eexists; vm_compute; reflexivity|by right; right; left|vm_compute; reflexivity|].
      apply case_from; vm_compute; reflexivity.
    + vm_compute. discriminate.
    + replace (body_param _ "code") with "nonsense" by (vm_compute; reflexivity). exact nonsense_text.
  - apply (deviates_refresh _ _ _ "c1").
    + apply case_token_for; [reflexivity|apply (case_endpoint _ _ "token")|eexists; vm_compute; reflexivity|by right; right; right; left|vm_compute; reflexivity|].
      apply case_from; vm_compute; reflexivity.
    + vm_compute. discriminate.
    + replace (body_param _ "refresh_token") with "nonsense" by (vm_compute; reflexivity). exact nonsense_text.
Qed.
Lemma c93_refuted : exists ev s r w code name, endpoint r "token" /\ serves ev s r w /\ error_document w code name /\
  ~ conforms ev s r code name.
Proof.
  destruct case_deviates as (H & _). assert (He : endpoint bad_grant "token") by apply (case_endpoint _ _ "token").
  destruct (c93_exact _ _ _ _ _ He H) as [(w & Hw & Hd) Hn].
  exists (case_env 1 rand1), case_server, bad_grant, w, 400%Z, "invalid_request". done.
Qed.
Lemma case_conforms :
  conforms (case_env 1 rand1) case_server (password_request case_auth "read admin") 400 "invalid_scope" /\
  conforms (case_env 1 rand1) case_server (password_request (basic_auth_header "c1" "x") "read") 401 "invalid_client".
Proof.
  split.
  - split; [|by left]. apply fault_scope; [apply not_allowed; vm_compute; reflexivity|]. vm_compute. tauto.
  - split; [|by right]. apply fault_client. intros id (x & Hx & c & Hc & Hs).
    vm_compute in Hx. injection Hx as <- <-. vm_compute in Hc. injection Hc as <-. discriminate (Hs eq_refl).
Qed.

(** ** C94 *)
Lemma case_addressed kind : kind = "magic" \/ kind = "code" -> well_addressed case_server (odd_type_request kind) case_client.
Proof.
  intros Hk. split; [by right; left|]. split; [destruct Hk as [-> | ->]; vm_compute; discriminate|].
  split; [destruct Hk as [-> | ->]; vm_compute; reflexivity|]. split; [destruct Hk as [-> | ->]; vm_compute; reflexivity|].
  split; [vm_compute; discriminate|]. eexists. split; vm_compute; reflexivity.
Qed.
Lemma c94_type_refuted : exists ev s r c w, endpoint r "authorize" /\ well_addressed s r c /\ rq_method r = "POST" /\
  ~ In (form_param r "response_type") response_types /\ serves ev s r w /\ error_document w 400 "invalid_request".
Proof.
  assert (He : endpoint (odd_type_request "magic") "authorize") by apply (case_endpoint _ _ "authorize").
  assert (Ht : ~ In (form_param (odd_type_request "magic") "response_type") response_types) by (vm_compute; intuition discriminate).
  destruct (c84_authorize (case_env 1 rand1) case_server _ He) as [H _].
  destruct (H 400%Z "invalid_request") as (w & Hw & Hd); [by apply refuse_response_type|].
  exists (case_env 1 rand1), case_server, (odd_type_request "magic"), case_client, w.
  split; [done|]. split; [apply case_addressed; by left|]. done.
Qed.
Lemma c94_uri_refuted : exists ev s r c w, endpoint r "authorize" /\
  sv_clients s !! form_param r "client_id" = Some c /\ passes_as_uri (en_redirect_uri c) /\ en_redirect_uri c <> "" /\
  In (form_param r "response_type") response_types /\ form_param r "redirect_uri" = "" /\
  serves ev s r w /\ error_document w 400 "invalid_request".
Proof.
  assert (He : endpoint no_uri_request "authorize") by apply (case_endpoint _ _ "authorize").
  assert (Hu : form_param no_uri_request "redirect_uri" = "") by (vm_compute; reflexivity).
  destruct (c94_missing_uri (case_env 1 rand1) case_server _ He Hu) as (w & Hw & Hd).
  exists (case_env 1 rand1), case_server, no_uri_request, case_client, w.
  split; [done|]. split; [vm_compute; reflexivity|]. split; [eexists; split; vm_compute; reflexivity|].
  split; [discriminate|]. split; [vm_compute; tauto|]. done.
Qed.
Lemma case_answered : exists w, serves (case_env 1000 rand1) case_server (odd_type_request "code") w /\
  endpoint (odd_type_request "code") "authorize" /\ well_addressed case_server (odd_type_request "code") case_client /\
  In (form_param (odd_type_request "code") "response_type") response_types.
Proof.
  eexists. split; [eexists; vm_compute; reflexivity|]. split; [apply (case_endpoint _ _ "authorize")|].
  split; [apply case_addressed; by right|]. vm_compute. tauto.
Qed.

(** ** C95 *)
Definition revoke_refresh : request := lookup_request "/oauth2/revoke" case_auth (refresh_of step2).
Lemma c95_refuted : exists ev0 s0 r0 s t ev r s' now r' required,
  handle ev0 s0 r0 = Done s (OToken t) /\ complete_revocation r /\ body_param r "token" = tr_refresh_token t /\
  handle ev s r = Done s' ORevoked /\ bearer r' (tr_access_token t) /\
  authorize now s' r' required new_rw = Some (true, new_rw).
Proof.
  eexists (case_env 1001 rand2), (after step1), (redeem_request case_auth (code_of step1)), (after step2), _,
    (case_env 1002 rand3), revoke_refresh, _, (1003 * second)%Z, (bearer_request (access_of step2)), (Some ["read"]).
  split; [vm_compute; reflexivity|].
  split; [split; [apply (case_endpoint _ _ "revoke")|split; [eexists; vm_compute; reflexivity|left; vm_compute; reflexivity]]|].
  split; [vm_compute; reflexivity|]. split; [vm_compute; reflexivity|].
  split; [apply bearer_spec; vm_compute; reflexivity|]. vm_compute. reflexivity.
Qed.
Lemma other_text s str str' t t' : parse_token (cfg_secret (sv_config s)) str = inl t -> parse_token (cfg_secret (sv_config s)) str' = inl t' ->
  seqb (signature_string t) (signature_string t') = false ->
  names (server_secret s) str (signature_string t) /\ ~ names (server_secret s) str' (signature_string t).
Proof.
  intros H1 H2 H3. split; [by apply names_parsed|]. intros Hn. apply seqb_false in H3. apply H3.
  exact (names_fun _ _ _ _ Hn (names_parsed _ _ _ H2)).
Qed.
Lemma case_other : exists s' sg, handle (case_env 1002 rand3) (after step2) revoke_refresh = Done s' ORevoked /\
  names (server_secret (after step2)) (body_param revoke_refresh "token") sg /\
  bearer (bearer_request (access_of step2)) (access_of step2) /\ ~ names (server_secret (after step2)) (access_of step2) sg.
Proof.
  eexists _, _. split; [vm_compute; reflexivity|].
  assert (forall (A B C : Prop), A /\ C -> B -> A /\ B /\ C) as Hx by tauto.
  apply Hx; [|apply bearer_spec; vm_compute; reflexivity].
  eapply other_text; vm_compute; reflexivity.
Qed.

(** ** C96 *)
Definition rotate : request := refresh_request case_auth (refresh_of step2).
Lemma unknown_refresh s str t : parse_token (cfg_secret (sv_config s)) str = inl t ->
  sv_refresh s !! signature_string t = None -> forall d, ~ refresh_token s str d.
Proof.
  intros Ht Hr d (sg & Hn & Hd). apply names_spec in Hn as (t' & Ht' & ->).
  unfold server_secret in Ht'. rewrite Ht in Ht'. injection Ht' as <-. congruence.
Qed.
Lemma known_refresh s str t d : parse_token (cfg_secret (sv_config s)) str = inl t ->
  sv_refresh s !! signature_string t = Some d -> refresh_token s str d.
Proof. intros Ht Hr. exists (signature_string t). split; [by apply names_parsed|done]. Qed.
Lemma case_rotate : token_request_for (after step2) rotate "c1" "refresh_token" /\ token_request_for (after step3) rotate "c1" "refresh_token" /\
  forall d, ~ refresh_token (after step3) (body_param rotate "refresh_token") d.
Proof.
  assert (Hc : complete_token_request rotate).
  { split; [apply (case_endpoint _ _ "token")|]. split; [eexists; vm_compute; reflexivity|]. vm_compute. tauto. }
  split; [split; [done|]; split; [apply case_from; vm_compute; reflexivity|vm_compute; reflexivity]|].
  split; [split; [done|]; split; [apply case_from; vm_compute; reflexivity|vm_compute; reflexivity]|].
  eapply unknown_refresh; vm_compute; reflexivity.
Qed.
Lemma c96_refuted : exists ev s0 r id s t ev' w now r' required d,
  token_request_for s0 r id "refresh_token" /\ handle ev s0 r = Done s (OToken t) /\
  serve_http ev' s r new_rw = (s, Some w) /\ status w = 400%Z /\
  bearer r' (tr_access_token t) /\ authorize now s r' required new_rw = Some (true, new_rw) /\
  refresh_token s (tr_refresh_token t) d.
Proof.
  eexists (case_env 1002 rand3), (after step2), rotate, "c1", (after step3), _, (case_env 1003 rand1), _,
    (1004 * second)%Z, (bearer_request (access_of step3)), (Some ["read"]), _.
  split; [apply case_rotate|]. split; [vm_compute; reflexivity|]. split; [vm_compute; reflexivity|]. split; [vm_compute; reflexivity|].
  split; [apply bearer_spec; vm_compute; reflexivity|]. split; [vm_compute; reflexivity|].
  eapply known_refresh; vm_compute; reflexivity.
Qed.
