(** C77: what a server makes of the message of a client. *)
From Verif.Model Require Import HttpClient.
From Verif.Spec Require Import ScopeSpec WireSpec RequestSpec ServerSpec ClientSpec TransportSpec.
From Verif.Proof Require Import StrFacts UrlFacts UrlParse Redirect RequestProofs RequestParse ServerFacts TransportFacts TransportProofs GrantProofs ClientProofs.

#[local] Open Scope string_scope.
#[local] Opaque basic_auth_header encode_values canonical_addr url_string handle parse_token.

(** A parsed URL with a host has a path that can be printed and read again. *)
Lemma parse_url_host b raw u : parse_url b raw = Some u -> u_host u <> "" ->
  u_opaque u = "" /\ path_ok (u_path u) (u_rawpath u) /\ no_ctl (u_rawquery u) = true.
Proof.
  intros H Hh. unfold parse_url in H.
  destruct (all_bytes (fun c => negb (is_ctl c)) raw) eqn:Ectl; [|done]. cbn [negb] in H.
  destruct (seqb raw "" && b); [done|].
  destruct (seqb raw "*"); [injection H as <-; done|].
  destruct (getscheme raw) as [[scheme0 rest0]|] eqn:Eg; [|done].
  destruct (match cut "?" rest0 with Some (x, "") => (x, true, "") | Some (x, q) => (x, false, q) | None => (rest0, false, "") end)
    as [[rest fq] rq] eqn:Ecut.
  assert (Hrq : no_ctl rq = true).
  { change (no_ctl raw = true) in Ectl.
    assert (Hr0 : no_ctl rest0 = true).
    { destruct (getscheme_cases _ _ _ Eg) as [[_ ->]|[_ ->]]; [done|]. rewrite !no_ctl_app, !andb_true_iff in Ectl. tauto. }
    destruct (cut "?" rest0) as [[x q]|] eqn:Ec; [|by injection Ecut as _ _ <-].
    apply cut_some in Ec as [-> _]. rewrite no_ctl_app, andb_true_iff in Hr0. destruct Hr0 as [_ Hq].
    unfold no_ctl in Hq. cbn [all_bytes] in Hq. apply andb_true_iff in Hq as [_ Hq].
    destruct q; injection Ecut as _ _ <-; done. }
  cbv zeta in H.
  set (rooted := match strip_prefix "/" rest with Some _ => true | None => false end) in *.
  destruct (negb rooted && negb (seqb (to_lower scheme0) "")); [injection H as <-; done|].
  destruct (negb rooted && b); [done|]. destruct (negb rooted && first_segment_colon rest); [done|].
  assert (Hno : forall u, match set_escaped EncPath rest with
     | Some (path, rawpath) => Some (mk_url (to_lower scheme0) "" None "" path rawpath fq rq) | None => None end = Some u -> u_host u = "").
  { intros u'. destruct (set_escaped EncPath rest) as [[p r]|]; [|done]. by intros [= <-]. }
  destruct (strip_prefix "//" rest) as [after|]; [|by apply Hno in H].
  destruct (_ || _); [|by apply Hno in H].
  destruct (match cut "/" after with Some (a, b) => (a, String "/" b) | None => (after, "") end) as [authority rest'] eqn:Eau.
  assert (Hr' : rest' = "" \/ abs_path rest').
  { destruct (cut "/" after) as [[x y]|]; injection Eau as _ <-; [right; by eexists|by left]. }
  destruct (parse_authority authority) as [[user host]|]; [|done].
  destruct (set_escaped EncPath rest') as [[p r]|] eqn:Ep; [|done]. injection H as <-.
  cbn [mk_url u_opaque u_path u_rawpath u_rawquery]. split; [done|]. split; [by exists rest'|done].
Qed.
Lemma url_parse_host raw u : url_parse raw = Some u -> u_host u <> "" ->
  u_opaque u = "" /\ path_ok (u_path u) (u_rawpath u) /\ no_ctl (u_rawquery u) = true.
Proof.
  unfold url_parse. destruct (match cut "#" raw with Some (u, f) => (u, f) | None => (raw, "") end) as [v frag].
  destruct (parse_url false v) as [r|] eqn:E; [|done]. destruct (seqb frag "").
  - intros [= <-]. by apply (parse_url_host false v).
  - destruct (set_escaped EncFragment frag) as [[f rf]|]; [|done]. intros [= <-].
    cbn [u_host u_opaque u_path u_rawpath u_rawquery]. by apply (parse_url_host false v).
Qed.

Lemma escaped_path_blank u : contains " " (escaped_path u) = false.
Proof.
  unfold escaped_path, escaped_hint.
  assert (He : contains " " (escape EncPath (u_path u)) = false).
  { apply escape_never. intros c. apply negb_true_iff. revert c. apply ascii_forall. vm_compute. reflexivity. }
  assert (Hd : contains " " (if seqb (u_path u) "*" then "*" else escape EncPath (u_path u)) = false) by (by destruct (seqb _ "*")).
  destruct (negb _ && valid_encoded EncPath (u_rawpath u)) eqn:E; [|exact Hd].
  destruct (unescape EncPath (u_rawpath u)) as [p|]; [|exact Hd]. destruct (seqb p (u_path u)); [|exact Hd].
  apply andb_true_iff in E as [_ E]. eapply all_bytes_not_contains; [exact E|]. vm_compute. reflexivity.
Qed.

(** The request line of a URL is read as its path and query. *)
Lemma request_uri_read u : u_opaque u = "" -> path_ok (u_path u) (u_rawpath u) -> no_ctl (u_rawquery u) = true ->
  u_path u <> "" -> exists u', parse_request_uri (request_uri u) = Some u' /\ u_path u' = u_path u /\ u_rawquery u' = u_rawquery u.
Proof.
  intros Ho Hp Hq Hne. destruct (escaped_path_ok u Hp) as (Hun & Hctl & Hnq & _ & Hcase).
  destruct Hcase as [[_ ?]|[[r Hr] _]]; [done|].
  assert (Htarget : request_uri u = escaped_path u +:+ query_tail (u_forcequery u) (u_rawquery u)).
  { unfold request_uri. rewrite Ho. change (seqb "" "") with true. cbv zeta. cbn iota. rewrite Hr. reflexivity. }
  rewrite Htarget.
  assert (Htail : no_ctl (query_tail (u_forcequery u) (u_rawquery u)) = true).
  { unfold query_tail. destruct (_ || _); [|done]. by rewrite no_ctl_app, Hq. }
  destruct (parse_known (escaped_path u +:+ query_tail (u_forcequery u) (u_rawquery u)) "" (escaped_path u) (u_forcequery u) (u_rawquery u)) as [fq' Hk].
  - by rewrite no_ctl_app, Hctl, Htail.
  - rewrite Hr, app_cons_s. done.
  - rewrite Hr, app_cons_s. done.
  - rewrite Hr, app_cons_s. apply getscheme_slash.
  - done.
  - done.
  - rewrite Hk. assert (strip_prefix "/" (escaped_path u) = Some r) as -> by (by apply strip_prefix_some).
    cbn [negb andb]. unfold set_escaped. rewrite Hun. change (seqb "" "") with true. cbn [negb].
    destruct (strip_prefix "//" (escaped_path u)); (eexists; split; [reflexivity|]; done).
Qed.
Lemma request_uri_blank u : u_opaque u = "" -> contains " " (request_uri u) = contains " " (u_rawquery u).
Proof.
  intros Ho. unfold request_uri. rewrite Ho. change (seqb "" "") with true. cbv zeta. cbn iota. rewrite contains_app.
  assert (contains " " (if seqb (escaped_path u) "" then "/" else escaped_path u) = false) as ->.
  { destruct (seqb _ ""); [done|]. apply escaped_path_blank. }
  cbn [orb]. destruct (u_forcequery u || negb (seqb (u_rawquery u) "")) eqn:E; [done|].
  apply orb_false_iff in E as [_ E]. apply negb_false_iff, seqb_true in E. by rewrite E.
Qed.

(** ** The message of a call *)

Lemma arrives_built uri vals id secret : sendable uri -> id <> "" \/ secret <> "" ->
  exists m w r, post_message uri vals id secret = Some m /\ on_wire m = Some w /\ arrives w = Some r /\
    build_post uri vals id secret = Some r.
Proof.
  intros (u & Hu & Hs & Hh & Hp & Hb) Hsec.
  assert (exists m, post_message uri vals id secret = Some m) as [m Hm].
  { unfold post_message, new_post. rewrite Hu. by eexists. }
  pose proof (post_message_spec _ _ _ _ _ Hm) as (u1 & Hu1 & H1 & H2 & H3 & H4 & H5 & H6 & H7 & H8 & H9 & H10 & H11 & H12 & _).
  assert (u1 = u) as -> by congruence.
  assert (Hc : negb (seqb id "") || negb (seqb secret "") = true).
  { destruct Hsec as [H|H]; apply seqb_false in H; rewrite H; cbn; [done|apply orb_true_r]. }
  rewrite Hc in H12.
  destruct (on_wire_some m) as [w Hw]; [congruence|congruence|].
  exists m, w. pose proof (on_wire_same _ _ Hw) as (W1 & W2 & W3 & W4 & W5 & W6 & _).
  assert (Hhost : u_host u <> "").
  { intros E. rewrite E in Hh. done. }
  destruct (url_parse_host _ _ Hu Hhost) as (U1 & U2 & U3).
  assert (O1 : u_opaque (ms_url w) = "") by congruence.
  destruct (request_uri_read (ms_url w)) as (u' & R1 & R2 & R3).
  { done. }
  { by rewrite W2, H7, H8. }
  { by rewrite W2, H10. }
  { by rewrite W2, H7. }
  eexists. split; [done|]. split; [done|]. split.
  - unfold arrives. cbv zeta. rewrite request_uri_blank by done. rewrite W2, H10.
    assert (contains " " (u_rawquery u) = false) as -> by (by apply without_contains).
    rewrite <- W2, R1. reflexivity.
  - unfold build_post. rewrite Hu, Hc. f_equal. rewrite R2, R3, W2, H7, H10, W1, H1, W5, H11, W4, H2.
    rewrite W6; [|rewrite H12; apply basic_auth_header_nonempty]. rewrite H12. reflexivity.
Qed.

(** A blank in the query. *)
Lemma blank_refused uri vals id secret u m w : url_parse uri = Some u -> u_host u <> "" -> ~ without " " (u_rawquery u) ->
  post_message uri vals id secret = Some m -> on_wire m = Some w -> arrives w = None.
Proof.
  intros Hu Hh Hb Hm Hw.
  pose proof (post_message_spec _ _ _ _ _ Hm) as (u1 & Hu1 & _ & _ & _ & H4 & _ & _ & _ & _ & _ & H10 & _).
  assert (u1 = u) as -> by congruence.
  apply on_wire_same in Hw as (_ & W2 & _). destruct (url_parse_host _ _ Hu Hh) as (U1 & _).
  unfold arrives. cbv zeta. rewrite request_uri_blank by congruence. rewrite W2, H10.
  destruct (contains " " (u_rawquery u)) eqn:E; [done|]. exfalso. apply Hb. by apply without_contains.
Qed.

(** ** The endpoints a client calls send no redirects *)

Lemma no_redirect ev s r s' w : endpoint r "token" \/ endpoint r "introspect" \/ endpoint r "revoke" ->
  serve_http ev s r new_rw = (s', Some w) ->
  exists code h, rw_sent w = Some (code, h) /\ In code [200; 400; 401; 403]%Z.
Proof.
  intros He Hs. destruct (serve_sent _ _ _ _ _ Hs) as (o & Hh & Ha & Hw).
  assert (Ho : (exists e, o = OError e /\ plain_error e) \/ (exists t, o = OToken t /\ tr_redirect_uri t = "") \/
     (exists i, o = OIntro i) \/ o = ORevoked).
  { destruct He as [He|[He|He]].
    - rewrite handle_token in Hh by done. apply token_answer in Hh as [H|(t & -> & Ht & _)]; [by left|right; left; eauto].
    - rewrite handle_introspect in Hh by done. apply introspection_answer in Hh as [H|(i & -> & _)]; [by left|right; right; left; eauto].
    - rewrite handle_revoke in Hh by done. apply revocation_answer in Hh as [H| ->]; [by left|]. tauto. }
  destruct Ho as [(e & -> & Hp)|[(t & -> & Ht)|[(i & ->)| ->]]].
  - pose proof (plain_error_shape _ Hp) as (Hnr & _ & _ & _ & _ & _ & Hst).
    inversion Hw as [e0 w0 Hp' Hw'|rq e0 loc Hr Hne Hl| | | | | | |]; subst.
    + cbn [rw_sent]. do 2 eexists. split; [reflexivity|]. destruct Hst as [(_ & -> & _)|[[-> | ->] _]]; cbn; tauto.
    + destruct Hr as (b & Hb & ->). cbn [set_error_redirect e_redirect_uri] in Hnr. done.
  - inversion Hw; subst; [|done]. cbn [sent_document rw_sent]. do 2 eexists. split; [reflexivity|]. cbn. tauto.
  - inversion Hw; subst. cbn [sent_document rw_sent]. do 2 eexists. split; [reflexivity|]. cbn. tauto.
  - inversion Hw; subst. cbn [rw_sent]. do 2 eexists. split; [reflexivity|]. cbn. tauto.
Qed.

(** The reply to a message of a call is no redirect, and is what C55 is about. *)
Lemma answer_connected ev s w r name : arrives w = Some r -> endpoint r name -> In name ["token"; "introspect"; "revoke"] ->
  match answers ev s w with
  | Some a => connected ev s r = Some (rp_response a) /\ ~ redirects a
  | None => connected ev s r = None
  end.
Proof.
  intros Hr He Hname. unfold answers, connected. rewrite Hr.
  destruct (serve_http ev s r new_rw) as [s' [w'|]] eqn:Es; cbn [snd]; [|done].
  destruct (no_redirect ev s r s' w') as (code & h & Hsent & Hcode).
  { destruct Hname as [<-|[<-|[<-|[]]]]; tauto. }
  { done. }
  unfold reply_of, received. rewrite Hsent. cbn [rp_response]. split; [done|]. unfold redirects. cbn [rp_response rs_status].
  cbn [In] in Hcode |- *. lia.
Qed.

Lemma single_exchange n hc net ev s m w a_or : on_wire m = Some w -> first_answered net ev s ->
  answers ev s w = a_or -> (forall a, a_or = Some a -> ~ redirects a) ->
  http_do n hc net m = ([w], match a_or with Some a => Got a | None => Failed end).
Proof.
  intros Hw Hnet Ha Hr. unfold http_do. destruct n; cbn [hops]; rewrite Hw; cbn [app]; rewrite Hnet, Ha;
    (destruct a_or as [a|]; [|done]); rewrite (redirect_behavior_none _ a) by (by apply Hr); done.
Qed.

Lemma call_single n hc net ev s c k name : sendable (endpoint_of c k) -> leads_to (endpoint_of c k) name ->
  In name ["token"; "introspect"; "revoke"] -> has_secret k -> first_answered net ev s ->
  exists m w r, message_of c k = Some m /\ arrives w = Some r /\ asks_for (endpoint_of c k) w /\
    build_post (endpoint_of c k) (parameters k) (fst (client_of k)) (snd (client_of k)) = Some r /\
    http_do n hc net m = ([w], match answers ev s w with Some a => Got a | None => Failed end) /\
    match answers ev s w with Some a => connected ev s r = Some (rp_response a) | None => connected ev s r = None end.
Proof.
  intros Hs Hl Hname Hk Hnet.
  destruct (arrives_built (endpoint_of c k) (parameters k) (fst (client_of k)) (snd (client_of k)) Hs) as (m & w & r & Hm & Hw & Hr & Hb).
  { unfold has_secret in Hk. destruct (client_of k) as [i x]. cbn [fst snd].
    destruct (String.string_dec i "") as [->|]; [|by left]. destruct (String.string_dec x "") as [->|]; [done|by right]. }
  exists m, w, r. split; [exact Hm|]. split; [done|].
  pose proof (post_message_spec _ _ _ _ _ Hm) as (u & Hu & H1 & H2 & H3 & H4 & H5 & H6 & H7 & H8 & H9 & H10 & _).
  pose proof (on_wire_same _ _ Hw) as (W1 & W2 & _).
  split; [split; exists u; rewrite W2; [split; [done|split; [done|]]|done]|].
  { rewrite H6. apply remove_empty_port_host. }
  split; [done|]. pose proof (answer_connected ev s w r name Hr (leads_endpoint _ _ _ _ _ _ Hl Hb) Hname) as Ha.
  split.
  - eapply single_exchange; [done..|]. intros a Haa. rewrite Haa in Ha. tauto.
  - destruct (answers ev s w); tauto.
Qed.

Lemma c77_authenticate n hc net ev s c q : sendable (cc_base_uri c +:+ cc_token_endpoint c) ->
  leads_to (cc_base_uri c +:+ cc_token_endpoint c) "token" -> has_secret (CallAuthenticate q) -> first_answered net ev s ->
  exists w r, asks_for (cc_base_uri c +:+ cc_token_endpoint c) w /\ arrives w = Some r /\
    build_token_request (cc_base_uri c +:+ cc_token_endpoint c) q = Some r /\
    authenticate_over n hc net c q = ([w], Some (client_authenticate c (connected ev s) q)).
Proof.
  intros Hs Hl Hk Hnet.
  destruct (call_single n hc net ev s c (CallAuthenticate q) "token") as (m & w & r & Hm & Hr & Hask & Hb & Hd & Hc); [done..|cbn; tauto|done|done|].
  exists w, r. split; [done|]. split; [done|]. split; [done|].
  unfold message_of in Hm. cbn [endpoint_of parameters client_of fst snd] in Hm, Hb.
  unfold authenticate_over, client_authenticate. rewrite Hm, Hd. unfold build_token_request. rewrite Hb.
  destruct (answers ev s w) as [a|]; rewrite Hc; reflexivity.
Qed.
Lemma c77_introspect n hc net ev s c q : sendable (cc_base_uri c +:+ cc_introspection_endpoint c) ->
  leads_to (cc_base_uri c +:+ cc_introspection_endpoint c) "introspect" -> has_secret (CallIntrospect q) -> first_answered net ev s ->
  exists w r, asks_for (cc_base_uri c +:+ cc_introspection_endpoint c) w /\ arrives w = Some r /\
    build_introspection_request (cc_base_uri c +:+ cc_introspection_endpoint c) q = Some r /\
    introspect_over n hc net c q = ([w], Some (client_introspect c (connected ev s) q)).
Proof.
  intros Hs Hl Hk Hnet.
  destruct (call_single n hc net ev s c (CallIntrospect q) "introspect") as (m & w & r & Hm & Hr & Hask & Hb & Hd & Hc); [done..|cbn; tauto|done|done|].
  exists w, r. split; [done|]. split; [done|]. split; [done|].
  unfold message_of in Hm. cbn [endpoint_of parameters client_of fst snd] in Hm, Hb.
  unfold introspect_over, client_introspect. rewrite Hm, Hd. change (build_introspection_request (cc_base_uri c +:+ cc_introspection_endpoint c) q) with (build_post (cc_base_uri c +:+ cc_introspection_endpoint c) (lookup_request_values q) (lq_client_id q) (lq_client_secret q)). rewrite Hb.
  destruct (answers ev s w) as [a|]; rewrite Hc; reflexivity.
Qed.
Lemma c77_revoke n hc net ev s c q : sendable (cc_base_uri c +:+ cc_revocation_endpoint c) ->
  leads_to (cc_base_uri c +:+ cc_revocation_endpoint c) "revoke" -> has_secret (CallRevoke q) -> first_answered net ev s ->
  exists w r, asks_for (cc_base_uri c +:+ cc_revocation_endpoint c) w /\ arrives w = Some r /\
    build_revocation_request (cc_base_uri c +:+ cc_revocation_endpoint c) q = Some r /\
    revoke_over n hc net c q = ([w], Some (client_revoke c (connected ev s) q)).
Proof.
  intros Hs Hl Hk Hnet.
  destruct (call_single n hc net ev s c (CallRevoke q) "revoke") as (m & w & r & Hm & Hr & Hask & Hb & Hd & Hc); [done..|cbn; tauto|done|done|].
  exists w, r. split; [done|]. split; [done|]. split; [done|].
  unfold message_of in Hm. cbn [endpoint_of parameters client_of fst snd] in Hm, Hb.
  unfold revoke_over, client_revoke. rewrite Hm, Hd. change (build_revocation_request (cc_base_uri c +:+ cc_revocation_endpoint c) q) with (build_post (cc_base_uri c +:+ cc_revocation_endpoint c) (lookup_request_values q) (lq_client_id q) (lq_client_secret q)). rewrite Hb.
  destruct (answers ev s w) as [a|]; rewrite Hc; reflexivity.
Qed.

(** ** Other calls *)

(** Without name and secret, the user part of the URI is sent. *)
Lemma c77_url_user n hc net c k w l u : ~ has_secret k -> url_parse (endpoint_of c k) = Some u ->
  messages n hc net c k = w :: l ->
  header_get (ms_header w) "Authorization" =
    match u_user u with Some ui => basic_auth_header (ui_name ui) (default "" (ui_password ui)) | None => "" end.
Proof.
  intros Hk Hu H. destruct (messages_chain n hc net c k) as [E|(m & Hm & Hc)]; [congruence|].
  rewrite H in Hc. apply chain_head in Hc.
  pose proof (post_message_spec _ _ _ _ _ Hm) as (u1 & Hu1 & _ & _ & _ & _ & H5 & _ & _ & _ & _ & _ & _ & H12 & _).
  assert (u1 = u) as -> by congruence.
  assert (client_of k = ("", "")) as Hc0.
  { unfold has_secret in Hk. destruct (client_of k) as [i x].
    destruct (String.string_dec i "") as [->|]; [|exfalso; apply Hk; congruence].
    destruct (String.string_dec x "") as [->|]; [done|exfalso; apply Hk; congruence]. }
  rewrite Hc0 in H12. cbn [fst snd] in H12. change (negb (seqb "" "") || negb (seqb "" "")) with false in H12. cbn iota in H12.
  unfold on_wire in Hc. destruct (_ && _); [done|]. destruct (seqb (u_host (ms_url m)) ""); [done|]. rewrite H5 in Hc.
  destruct (u_user u) as [ui|]; [|injection Hc as <-; done].
  rewrite H12 in Hc. change (seqb "" "") with true in Hc. cbn iota in Hc. injection Hc as <-.
  unfold set_header. rewrite (proj1 canonical_names). cbn [ms_header]. apply get_set_same.
Qed.

(** A blank in the query of the endpoint. *)
Lemma bad_request_read limit : parse_request_error (rp_response bad_request) limit = GOther.
Proof.
  unfold parse_request_error, read_limited. cbn [bad_request rp_response rs_body rs_clean rs_status].
  generalize (Z.to_nat limit). intros n.
  assert (H : forall t, (exists p, "400 Bad Request" = t +:+ p) ->
    match json_parse t with Some j => match error_of_json j with Some e => GErr (set_status e 400) | None => GOther end | None => GOther end = GOther).
  { intros t [p Hp]. do 16 (destruct t as [|? t]; [vm_compute; reflexivity|cbn in Hp; try (injection Hp as <- Hp)]). discriminate Hp. }
  destruct (Nat.leb n (slen "400 Bad Request")); apply H; [|exists ""; reflexivity].
  do 16 (destruct n as [|n]; [eexists; cbn [take_max]; reflexivity|]). cbn [take_max]. exists "". reflexivity.
Qed.
Lemma c77_blank n hc net ev s c q u : url_parse (cc_base_uri c +:+ cc_token_endpoint c) = Some u ->
  In (u_scheme u) ["http"; "https"] -> remove_empty_port (u_host u) <> "" -> ~ without " " (u_rawquery u) ->
  first_answered net ev s ->
  exists w, authenticate_over n hc net c q = ([w], Some (inr GOther)).
Proof.
  intros Hu Hs Hh Hb Hnet.
  destruct (post_message (cc_base_uri c +:+ cc_token_endpoint c) (token_request_values q) (tq_client_id q) (tq_client_secret q)) as [m|] eqn:Hm.
  2:{ unfold post_message, new_post in Hm. rewrite Hu in Hm. discriminate Hm. }
  pose proof (post_message_spec _ _ _ _ _ Hm) as (u1 & Hu1 & _ & _ & H3 & _ & _ & H6 & _).
  assert (u1 = u) as -> by congruence.
  destruct (on_wire_some m) as [w Hw]; [congruence..|].
  assert (Hhost : u_host u <> "") by (intros E; rewrite E in Hh; done).
  pose proof (blank_refused _ _ _ _ _ _ _ Hu Hhost Hb Hm Hw) as Ha.
  exists w. unfold authenticate_over. rewrite Hm.
  rewrite (single_exchange n hc net ev s m w (Some bad_request)); [|done|done|unfold answers; by rewrite Ha|].
  2:{ intros a [= <-]. unfold redirects. cbn. lia. }
  change (rs_status (rp_response bad_request)) with 400%Z. change (negb (400 =? 200)%Z) with true. cbn iota. by rewrite bad_request_read.
Qed.
