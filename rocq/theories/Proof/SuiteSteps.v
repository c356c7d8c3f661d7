(** The requests of the tests, one by one. *)
From Verif.Model Require Import Client Suite.
From Verif.Spec Require Import TokenSpec ScopeSpec WireSpec RequestSpec ServerSpec SuiteSpec.
From Verif.Proof Require Import StrFacts Base64Facts HsFacts TokenProofs UrlFacts UrlParse DecFacts JsonFacts CodecFacts CodecProofs
  ScopeFacts ScopeProofs WireFacts WireProofs Redirect ServerFacts Steps RequestProofs RequestParse ServerProofs GrantProofs
  EffectProofs Effects SuiteFacts.

(** ** Runs *)
Definition safe {S} (h : handler S) (n : nat) (evs : list env) (s : S) (p : suite) : Prop :=
  let r := run_suite h evs s p in
  Forall (fun b => b = true) (rp_checks r) /\
  (rp_ending r = Completed \/ (rp_ending r = Out_of_input /\ length evs < n)).

Lemma safe_finish {S} (h : handler S) n evs s : safe h n evs s Finish.
Proof. split; [constructor|by left]. Qed.
Lemma safe_check {S} (h : handler S) n evs s b p : b = true -> safe h n evs s p -> safe h n evs s (Check b p).
Proof. intros -> [H1 H2]. split; [by constructor|exact H2]. Qed.
Lemma safe_send {S} (h : handler S) n evs s q k r : do_request q = Some r ->
  (forall ev evs', evs = ev :: evs' -> exists s' w, h ev s r = (s', Some w) /\ safe h n evs' s' (k w)) ->
  safe h (Datatypes.S n) evs s (Send q k).
Proof.
  intros Hd H. unfold safe. cbn [run_suite]. rewrite Hd. destruct evs as [|ev evs'].
  - split; [constructor|]. right. split; [done|]. cbn. lia.
  - destruct (H ev evs' eq_refl) as (s' & w & Hh & H1 & H2). rewrite Hh. split; [exact H1|].
    destruct H2 as [H2|[H2 H3]]; [by left|right]. split; [done|]. cbn. lia.
Qed.
Lemma safe_mono {S} (h : handler S) n m evs s p : n <= m -> safe h n evs s p -> safe h m evs s p.
Proof. intros Hle [H1 H2]. split; [done|]. destruct H2 as [H2|[H2 H3]]; [by left|right]. split; [done|lia]. Qed.
Lemma safe_some {S} (h : handler S) n evs s v (ok : string -> bool) x p : v = Some x -> ok x = true ->
  safe h n evs s p -> safe h n evs s (check_some v ok p).
Proof. intros -> Hok Hp. by apply safe_check. Qed.

(** ** The endpoints after parsing *)
Definition token_outcome (ev : env) (s : server) (req : token_request) : result :=
  if negb (known_grant_type (tq_grant_type req)) then
    Done s (OError (InvalidRequest "unknown grant type"))
  else match sv_clients s !! tq_client_id req with
  | None => Done s (OError (InvalidClient "unknown client"))
  | Some client =>
      if negb (client_ok client (tq_client_secret req)) then
        Done s (OError (InvalidClient "unknown client"))
      else if seqb (tq_grant_type req) PasswordGrantType then handle_password ev s req
      else if seqb (tq_grant_type req) ClientCredentialsGrantType
           then handle_client_credentials ev s req
      else if seqb (tq_grant_type req) AuthorizationCodeGrantType then handle_code ev s req
      else handle_refresh ev s req
  end.
Lemma token_endpoint_outcome ev s r req : parse_token_request r = inl req ->
  token_endpoint ev s r = token_outcome ev s req.
Proof. intros H. unfold token_endpoint. by rewrite H. Qed.

Definition tokreq (id secret : string) (form : gmap string string) (ru : string) : token_request :=
  {| tq_grant_type := pget form "grant_type"; tq_scope := parse_scope (pget form "scope");
     tq_client_id := id; tq_client_secret := secret;
     tq_username := pget form "username"; tq_password := pget form "password";
     tq_refresh_token := pget form "refresh_token"; tq_redirect_uri := ru; tq_code := pget form "code" |}.

(** A redirect URI as the token endpoint takes it. *)
Definition takes (raw ru : string) : Prop :=
  query_unescape raw = Some ru /\ (ru = "" \/ is_Some (parse_request_uri ru)).

Lemma token_parse path id secret ct form ru : id <> "" -> without ":" id ->
  pget form "grant_type" <> "" -> takes (pget form "redirect_uri") ru ->
  parse_token_request (treq "POST" path (basic_auth_header id secret) ct form) = inl (tokreq id secret form ru).
Proof.
  intros Hid Hw Hg [Hu Hr]. unfold parse_token_request. rewrite treq_form. cbn [rq_method treq f_post].
  change (seqb "POST" "POST") with true. cbn [negb]. cbv zeta. rewrite !vget_singles.
  fold (pget form "grant_type") (pget form "redirect_uri") (pget form "scope") (pget form "username")
    (pget form "password") (pget form "refresh_token") (pget form "code").
  change ({| rq_method := "POST"; rq_path := path; rq_query := ""; rq_auth := basic_auth_header id secret; rq_ctype := ct; rq_body := None; rq_preset := Some (singles form) |})
    with (treq "POST" path (basic_auth_header id secret) ct form).
  rewrite treq_basic by done. rewrite (ne_seqb _ "" Hg), (ne_seqb id "" Hid), Hu.
  destruct (seqb ru "") eqn:E; [done|].
  destruct Hr as [-> | [u Hp]]; [by rewrite seqb_same in E|]. rewrite Hp.
  destruct (parse_request_fragment ru u Hp) as [-> _]. done.
Qed.

Definition lookup_outcome (s : server) (form : gmap string string) (id secret : string) : (hs_token + error) :=
  let hint := pget form "token_type_hint" in
  if negb (seqb hint "") && negb (known_token_type hint) then inr (UnsupportedTokenType "")
  else match sv_clients s !! id with
  | None => inr (InvalidClient "unknown client")
  | Some client =>
      if negb (client_ok client secret) then inr (InvalidClient "unknown client")
      else match parse_token (cfg_secret (sv_config s)) (pget form "token") with
           | inr msg => inr (InvalidRequest msg)
           | inl t => inl t
           end
  end.
Definition lookreq (id secret : string) (form : gmap string string) : Endpoints.lookup_request :=
  {| lq_token := pget form "token"; lq_token_type_hint := pget form "token_type_hint";
     lq_client_id := id; lq_client_secret := secret |}.

Lemma lookup_parse s path id secret ct form : without ":" id -> pget form "token" <> "" ->
  lookup_prologue s (treq "POST" path (basic_auth_header id secret) ct form) =
  match lookup_outcome s form id secret with
  | inr e => inr e
  | inl t => inl (lookreq id secret form, t)
  end.
Proof.
  intros Hw Ht. unfold lookup_prologue, parse_lookup_request. rewrite treq_form.
  change (rq_method (treq "POST" path (basic_auth_header id secret) ct form)) with "POST".
  change (seqb "POST" "POST") with true. cbn [negb f_post]. cbv zeta. rewrite !vget_singles.
  fold (pget form "token") (pget form "token_type_hint"). rewrite (ne_seqb _ "" Ht), treq_basic by done.
  cbn [lq_token lq_token_type_hint lq_client_id lq_client_secret]. unfold lookup_outcome. cbv zeta.
  destruct (negb (seqb (pget form "token_type_hint") "") && negb (known_token_type (pget form "token_type_hint"))); [done|].
  destruct (sv_clients s !! id) as [c|]; [|done]. destruct (client_ok c secret); cbn [negb]; [|done].
  by destruct (parse_token _ _).
Qed.

Definition authreq (form : gmap string string) (ru : string) : authorization_request :=
  {| aq_response_type := pget form "response_type"; aq_scope := parse_scope (pget form "scope");
     aq_client_id := pget form "client_id"; aq_redirect_uri := ru; aq_state := pget form "state" |}.
Lemma authorize_parse m path auth ct form ru u : m = "GET" \/ m = "POST" ->
  pget form "response_type" <> "" -> pget form "client_id" <> "" ->
  query_unescape (pget form "redirect_uri") = Some ru -> parse_request_uri ru = Some u ->
  parse_authorization_request (treq m path auth ct form) = inl (authreq form ru).
Proof.
  intros Hm Hr Hc Hu Hp. unfold parse_authorization_request. rewrite treq_form. cbn [rq_method treq f_form].
  assert ((negb (seqb m "GET") && negb (seqb m "POST")) = false) as -> by (destruct Hm as [-> | ->]; reflexivity).
  cbv zeta. rewrite !vget_singles.
  fold (pget form "response_type") (pget form "client_id") (pget form "redirect_uri") (pget form "scope") (pget form "state").
  rewrite (ne_seqb _ "" Hr), (ne_seqb _ "" Hc), Hu, Hp.
  assert (Hne : ru <> "") by (intros ->; vm_compute in Hp; done).
  rewrite (ne_seqb ru "" Hne). destruct (parse_request_fragment ru u Hp) as [-> _]. done.
Qed.

(** ** Requests through the handler *)
Section Mounted.
Context (resource : string -> bool) (required : scope).

Definition respond (res : result) : server * option rw :=
  match res with Panic s' => (s', None) | Done s' o => (s', write_outcome new_rw o) end.

Lemma leads_mounted path name : leads_to resource path name -> contains "/" name = false ->
  exists u, url_parse path = Some u /\ u_rawquery u = "" /\ last_segment (u_path u) = name /\
    forall ev s m auth ct form, mounted resource required ev s (treq m (u_path u) auth ct form) =
      respond (handle ev s (treq m (u_path u) auth ct form)).
Proof.
  intros (u & Hu & Hq & Hr & Hp) Hn. exists u. split; [done|]. split; [done|]. split.
  - apply (endpoint_spec (treq "" (u_path u) "" "" ∅) name Hn). exact Hp.
  - intros ev s m auth ct form. unfold mounted. cbn [rq_path treq]. rewrite Hr. reflexivity.
Qed.

Lemma post_conf_request path name id secret form : leads_to resource path name -> contains "/" name = false -> id <> "" ->
  exists p ct, do_request (post_as id secret path form) = Some (treq "POST" p (basic_auth_header id secret) ct form) /\
    last_segment p = name /\
    forall ev s, mounted resource required ev s (treq "POST" p (basic_auth_header id secret) ct form) =
      respond (handle ev s (treq "POST" p (basic_auth_header id secret) ct form)).
Proof.
  intros Hl Hn Hid. destruct (leads_mounted path name Hl Hn) as (u & Hu & Hq & Hp & Hm).
  destruct (do_request_basic "POST" path u ∅ form id secret eq_refl ltac:(discriminate) Hu Hq Hid) as [ct Hd].
  exists (u_path u), ct. split; [exact Hd|]. split; [exact Hp|]. intros ev s. apply Hm.
Qed.

Lemma post_plain_request m path name hdr form : leads_to resource path name -> contains "/" name = false ->
  valid_method m = true -> m <> "" ->
  exists p auth ct, do_request {| sr_method := m; sr_path := path; sr_header := hdr; sr_form := form; sr_username := ""; sr_password := "" |}
      = Some (treq m p auth ct form) /\ last_segment p = name /\ auth = header_of (map_to_list hdr) "Authorization" /\
    forall ev s, mounted resource required ev s (treq m p auth ct form) = respond (handle ev s (treq m p auth ct form)).
Proof.
  intros Hl Hn Hv Hm. destruct (leads_mounted path name Hl Hn) as (u & Hu & Hq & Hp & Hmm).
  destruct (do_request_plain m path u hdr form Hv Hm Hu Hq) as [ct Hd].
  eexists (u_path u), _, ct. split; [exact Hd|]. split; [exact Hp|]. split; [done|]. intros ev s. apply Hmm.
Qed.

Lemma token_request_step id secret path form ru : leads_to resource path "token" -> id <> "" -> without ":" id ->
  pget form "grant_type" <> "" -> takes (pget form "redirect_uri") ru ->
  exists r, do_request (post_as id secret path form) = Some r /\
    forall ev s, mounted resource required ev s r = respond (token_outcome ev s (tokreq id secret form ru)).
Proof.
  intros Hl Hid Hw Hg Hu. destruct (post_conf_request path "token" id secret form Hl eq_refl Hid) as (p & ct & Hd & Hp & Hm).
  eexists. split; [exact Hd|]. intros ev s. rewrite Hm. f_equal.
  rewrite handle_token by (by apply endpoint_token).
  apply token_endpoint_outcome. by apply token_parse.
Qed.

Lemma introspect_request_step id secret path form : leads_to resource path "introspect" -> id <> "" -> without ":" id ->
  pget form "token" <> "" ->
  exists r, do_request (post_as id secret path form) = Some r /\
    forall ev s, mounted resource required ev s r = respond (introspection_endpoint s r) /\
      lookup_prologue s r = match lookup_outcome s form id secret with inr e => inr e | inl t => inl (lookreq id secret form, t) end.
Proof.
  intros Hl Hid Hw Ht. destruct (post_conf_request path "introspect" id secret form Hl eq_refl Hid) as (p & ct & Hd & Hp & Hm).
  eexists. split; [exact Hd|]. intros ev s. split; [|by apply lookup_parse]. rewrite Hm. f_equal.
  by rewrite handle_introspect by (by apply endpoint_introspect).
Qed.

Lemma revoke_request_step id secret path form : leads_to resource path "revoke" -> id <> "" -> without ":" id ->
  pget form "token" <> "" ->
  exists r, do_request (post_as id secret path form) = Some r /\
    forall ev s, mounted resource required ev s r = respond (revocation_endpoint s r) /\
      lookup_prologue s r = match lookup_outcome s form id secret with inr e => inr e | inl t => inl (lookreq id secret form, t) end.
Proof.
  intros Hl Hid Hw Ht. destruct (post_conf_request path "revoke" id secret form Hl eq_refl Hid) as (p & ct & Hd & Hp & Hm).
  eexists. split; [exact Hd|]. intros ev s. split; [|by apply lookup_parse]. rewrite Hm. f_equal.
  by rewrite handle_revoke by (by apply endpoint_revoke).
Qed.

(** The outcome of an authorization request that names the right client and URI. *)
Definition authorize_outcome (ev : env) (s : server) (rq : authorization_request) (user password : string) : result :=
  if seqb (aq_response_type rq) TokenResponseType
  then handle_implicit ev s user password rq
  else handle_code_authorization ev s user password rq.

Lemma resource_request_step path u hdr form : url_parse path = Some u -> resource (u_path u) = true ->
  exists r, do_request {| sr_method := "GET"; sr_path := path; sr_header := hdr; sr_form := form; sr_username := ""; sr_password := "" |} = Some r /\
    rq_auth r = header_of (map_to_list hdr) "Authorization" /\
    forall ev s, mounted resource required ev s r =
      match authorize (ev_now_check ev) s r required new_rw with
      | None => (s, None) | Some (false, w) => (s, Some w)
      | Some (true, w) => (s, option_map fst (write_bytes w "OK"))
      end.
Proof.
  intros Hu Hr. eexists. split; [|split].
  - unfold do_request. cbn [sr_method sr_path sr_header sr_form sr_username sr_password].
    change (negb (valid_method "GET")) with false. cbv iota. rewrite Hu. change (seqb "GET" "") with false. change (seqb "" "") with true. cbv iota. reflexivity.
  - reflexivity.
  - intros ev s. unfold mounted. cbn [rq_path]. rewrite Hr. reflexivity.
Qed.

Lemma header_auth v : header_of (map_to_list ({[ "Authorization" := v ]} : gmap string string)) "Authorization" = v.
Proof. rewrite map_to_list_singleton. reflexivity. Qed.
End Mounted.
