(** What the handlers can answer. *)
From Verif.Model Require Import Server.
From Verif.Spec Require Import WireSpec.
From Verif.Proof Require Import StrFacts UrlFacts UrlParse WireFacts WireProofs Redirect.

(** Split every test in hypothesis [H]. *)
Ltac split_match H :=
  repeat match type of H with
    | (if ?c then _ else _) = _ => let E := fresh "E" in destruct c eqn:E
    | match ?x with _ => _ end = _ => let E := fresh "E" in destruct x eqn:E
    | inl _ = inr _ => discriminate H
    | inr _ = inl _ => discriminate H
    | None = Some _ => discriminate H
    | Some _ = None => discriminate H
    | Done _ _ = Panic _ => discriminate H
    | Panic _ = Done _ _ => discriminate H
    end.

(** Errors that are answered with a document. *)
Definition basic_challenge : string := "Basic realm=" +:+ str1 dquote +:+ "OAuth2" +:+ str1 dquote.
Definition plain_error (e : error) : Prop :=
  exists d, ascii_only d = true /\
    (e = InvalidRequest d \/ e = InvalidClient d \/ e = InvalidGrant d \/ e = InvalidScope d \/
     e = AccessDenied d \/ e = UnsupportedTokenType d).
Definition plain_shape (e : error) : Prop :=
  e_redirect_uri e = "" /\ e_state e = "" /\ e_scope e = None /\ e_realm e = "" /\ e_uri e = "" /\
  e_use_fragment e = false /\
  ((e_name e = "invalid_client" /\ e_status e = 401%Z /\ e_headers e = {[ "WWW-Authenticate" := basic_challenge ]}) \/
   ((e_status e = 400%Z \/ e_status e = 403%Z) /\ e_headers e = ∅ /\ e_name e <> "invalid_client")).
Lemma plain_error_shape e : plain_error e -> plain_shape e.
Proof.
  intros (d & _ & [-> |[-> |[-> |[-> |[-> | ->]]]]]); do 6 (split; [done|]);
    first [by left|right; split; [by left|done]|right; split; [by right|done]].
Qed.
(** Errors that are answered with a redirect. *)
Definition redirect_error (rq : authorization_request) (e : error) : Prop :=
  exists b, (b = InvalidScope "" \/ b = AccessDenied "") /\
  e = set_error_redirect b (aq_redirect_uri rq) (aq_state rq) (seqb (aq_response_type rq) "token").

Lemma plain_invalid_request d : ascii_only d = true -> plain_error (InvalidRequest d).
Proof. intros H. exists d. tauto. Qed.
Lemma plain_invalid_client d : ascii_only d = true -> plain_error (InvalidClient d).
Proof. intros H. exists d. tauto. Qed.
Lemma plain_invalid_grant d : ascii_only d = true -> plain_error (InvalidGrant d).
Proof. intros H. exists d. tauto. Qed.
Lemma plain_invalid_scope d : ascii_only d = true -> plain_error (InvalidScope d).
Proof. intros H. exists d. tauto. Qed.
Lemma plain_access_denied d : ascii_only d = true -> plain_error (AccessDenied d).
Proof. intros H. exists d. tauto. Qed.
Lemma plain_unsupported_token_type d : ascii_only d = true -> plain_error (UnsupportedTokenType d).
Proof. intros H. exists d. tauto. Qed.
Lemma parse_token_message secret str msg : parse_token secret str = inr msg -> ascii_only msg = true.
Proof. unfold parse_token. intros H. cbv zeta in H. split_match H; injection H as <-; reflexivity. Qed.
Global Hint Extern 1 (ascii_only _ = true) => (reflexivity || (eapply parse_token_message; eassumption)) : core.
Global Hint Resolve plain_invalid_request plain_invalid_client plain_invalid_grant plain_invalid_scope
  plain_access_denied plain_unsupported_token_type : core.

(** ** Parsed requests *)
Lemma parse_authorization_inl r req : parse_authorization_request r = inl req ->
  (rq_method r = "GET" \/ rq_method r = "POST") /\
  (exists f, parse_form r = Some f /\
     aq_response_type req = vget (f_form f) "response_type" /\ aq_response_type req <> "" /\
     aq_scope req = parse_scope (vget (f_form f) "scope") /\
     aq_client_id req = vget (f_form f) "client_id" /\ aq_client_id req <> "" /\
     query_unescape (vget (f_form f) "redirect_uri") = Some (aq_redirect_uri req) /\
     aq_state req = vget (f_form f) "state") /\
  aq_redirect_uri req <> "" /\ is_Some (parse_request_uri (aq_redirect_uri req)).
Proof.
  unfold parse_authorization_request. intros H. split_match H. injection H as <-. cbn.
  apply andb_false_iff in E. rewrite !negb_false_iff, !seqb_true in E.
  apply seqb_false in E1, E2, E4. repeat split; auto.
  exists f. repeat split; auto.
Qed.
Lemma parse_authorization_inr r e : parse_authorization_request r = inr e -> plain_error e.
Proof. unfold parse_authorization_request. intros H. split_match H; injection H as <-; auto. Qed.

Lemma parse_token_inr r e : parse_token_request r = inr e -> plain_error e.
Proof.
  unfold parse_token_request. intros H. cbv zeta in H. split_match H; try (injection H as <-; auto).
  all: destruct (basic_auth r) as [[]|]; split_match H; injection H as <-; auto.
Qed.
Lemma parse_lookup_inr r e : parse_lookup_request r = inr e -> plain_error e.
Proof. unfold parse_lookup_request. intros H. cbv zeta in H. split_match H; injection H as <-; auto. Qed.

(** ** Answers *)
Inductive answer : outcome -> Prop :=
| ans_error e : plain_error e -> answer (OError e)
| ans_redirect_error rq e : redirect_error rq e -> aq_redirect_uri rq <> "" ->
    is_Some (parse_request_uri (aq_redirect_uri rq)) -> answer (OError e)
| ans_token r : tr_redirect_uri r = "" -> answer (OToken r)
| ans_implicit r : tr_redirect_uri r <> "" -> is_Some (parse_request_uri (tr_redirect_uri r)) -> answer (OToken r)
| ans_code r : is_Some (parse_request_uri (cr_redirect_uri r)) -> answer (OCode r)
| ans_intro r : (ir_active r = true -> known_token_type (ir_token_type r) = true) -> answer (OIntro r)
| ans_revoked : answer ORevoked
| ans_notice : answer ONotice
| ans_not_found : answer ONotFound.
Global Hint Constructors answer : core.

Lemma issue_tokens_redirect ev s b sc c u code s' r :
  issue_tokens ev s b sc c u code = Some (s', r) -> tr_redirect_uri r = "" /\ tr_state r = "".
Proof.
  unfold issue_tokens. intros H. cbv zeta in H. split_match H; injection H as _ <-; done.
Qed.

Lemma authorization_answer ev s r s' o : authorization_endpoint ev s r = Done s' o -> answer o.
Proof.
  unfold authorization_endpoint. intros H.
  destruct (parse_authorization_request r) as [req|e] eqn:Ep.
  2:{ injection H as _ <-. eauto using parse_authorization_inr. }
  apply parse_authorization_inl in Ep as (_ & _ & Hne & Hu).
  unfold handle_implicit, handle_code_authorization in H. cbv zeta in H.
  split_match H; injection H as _ <-; eauto.
  - eapply ans_redirect_error; [|exact Hne|exact Hu]. eexists. split; [by left|]. unfold TokenResponseType in *.
    match goal with H : seqb (aq_response_type req) _ = _ |- _ => by rewrite H end.
  - eapply ans_redirect_error; [|exact Hne|exact Hu]. eexists. split; [by right|]. unfold TokenResponseType in *.
    match goal with H : seqb (aq_response_type req) _ = _ |- _ => by rewrite H end.
  - eapply ans_redirect_error; [|exact Hne|exact Hu]. eexists. split; [by left|]. unfold TokenResponseType in *.
    match goal with H : seqb (aq_response_type req) _ = _ |- _ => by rewrite H end.
  - eapply ans_redirect_error; [|exact Hne|exact Hu]. eexists. split; [by right|]. unfold TokenResponseType in *.
    match goal with H : seqb (aq_response_type req) _ = _ |- _ => by rewrite H end.
Qed.

Lemma token_answer ev s r s' o : token_endpoint ev s r = Done s' o ->
  (exists e, o = OError e /\ plain_error e) \/ (exists t, o = OToken t /\ tr_redirect_uri t = "" /\ tr_state t = "").
Proof.
  unfold token_endpoint. intros H.
  destruct (parse_token_request r) as [req|e] eqn:Ep.
  2:{ injection H as _ <-. left. eauto using parse_token_inr. }
  unfold handle_password, handle_client_credentials, handle_code, handle_refresh in H. cbv zeta in H.
  split_match H; injection H as _ <-; eauto using issue_tokens_redirect.
Qed.

Lemma prologue_inr s r e : lookup_prologue s r = inr e -> plain_error e.
Proof.
  unfold lookup_prologue. destruct (parse_lookup_request r) eqn:E; intros H; [|injection H as <-; eauto using parse_lookup_inr].
  split_match H; injection H as <-; auto.
Qed.
Lemma revocation_answer s r s' o : revocation_endpoint s r = Done s' o ->
  (exists e, o = OError e /\ plain_error e) \/ o = ORevoked.
Proof.
  unfold revocation_endpoint. destruct (lookup_prologue s r) as [[req t]|e] eqn:E; intros H.
  2:{ injection H as _ <-. eauto using prologue_inr. }
  cbv zeta in H. destruct (sv_access s !! signature_string t) eqn:Ea.
  - destruct (negb (seqb (cd_client_id c) (lq_client_id req))); split_match H; injection H as _ <-; eauto.
  - split_match H; injection H as _ <-; eauto.
Qed.
Lemma introspection_answer s r s' o : introspection_endpoint s r = Done s' o ->
  (exists e, o = OError e /\ plain_error e) \/
  (exists i, o = OIntro i /\ (ir_active i = true -> known_token_type (ir_token_type i) = true)).
Proof.
  unfold introspection_endpoint. destruct (lookup_prologue s r) as [[req t]|e] eqn:E; intros H.
  2:{ injection H as _ <-. eauto using prologue_inr. }
  cbv zeta in H. destruct (sv_access s !! signature_string t) eqn:Ea.
  - destruct (negb (seqb (cd_client_id c) (lq_client_id req))); split_match H; injection H as _ <-; eauto.
  - split_match H; injection H as _ <-; eauto.
Qed.

Lemma handle_answer ev s r s' o : handle ev s r = Done s' o -> answer o.
Proof.
  unfold handle. cbv zeta. intros H.
  destruct (seqb (last_segment (rq_path r)) "authorize"); [by eapply authorization_answer|].
  destruct (seqb (last_segment (rq_path r)) "token").
  { apply token_answer in H as [(e & -> & ?)|(t & -> & ? & ?)]; auto. }
  destruct (seqb (last_segment (rq_path r)) "introspect").
  { apply introspection_answer in H as [(e & -> & ?)|(t & -> & ?)]; auto. }
  destruct (seqb (last_segment (rq_path r)) "revoke").
  { apply revocation_answer in H as [(e & -> & ?)| ->]; auto. }
  injection H as _ <-. auto.
Qed.

(** ** Writing them *)
Lemma redirect_location_some uri params frag : is_Some (parse_request_uri uri) ->
  exists loc, redirect_location uri params frag = Some loc.
Proof.
  intros [u Hu]. unfold redirect_location, redirect_location_order. rewrite Hu. destruct frag; eauto.
Qed.

(** The header maps of the answers. *)
Definition error_headers (e : error) : headers :=
  rw_header (json_headers (set_headers new_rw (map_to_list (e_headers e)))).
Lemma write_error_document e : plain_error e ->
  write_error new_rw (GErr e) =
  Some ({| rw_header := error_headers e; rw_sent := Some (e_status e, error_headers e);
           rw_body := json_encode (error_json e) |}, true).
Proof.
  intros (Hr & _ & _ & _ & _ & _ & Hs)%plain_error_shape. unfold write_error, write_error_order. rewrite Hr. change (negb (seqb "" "")) with false. cbv iota.
  change (fold_left _ (map_to_list (e_headers e)) new_rw) with (set_headers new_rw (map_to_list (e_headers e))).
  assert (Hst : status_with_body (e_status e)).
  { unfold status_with_body. destruct Hs as [(_ & -> & _)|[[-> | ->] _]]; lia. }
  assert (Hv : valid_status (e_status e)) by (unfold status_with_body, valid_status in *; lia).
  rewrite write_fresh by (done || apply set_headers_sent). rewrite (proj2 (body_allowed_spec _ Hv) Hst).
  unfold error_headers. do 3 f_equal. by destruct Hs as [(_ & _ & ->)|(_ & -> & _)].
Qed.
Lemma error_headers_lookup e : plain_error e -> forall k l,
  error_headers e !! k = Some l <->
  json_header k l \/ (k = "Www-Authenticate" /\ l = [basic_challenge] /\ e_name e = "invalid_client").
Proof.
  intros (_ & _ & _ & _ & _ & _ & Hs)%plain_error_shape k l. unfold error_headers. rewrite json_headers_lookup.
  destruct Hs as [(Hn & _ & ->)|(_ & -> & Hn)].
  - rewrite map_to_list_singleton. cbn [set_headers fold_left fst snd]. unfold set_headers. cbn [fold_left fst snd].
    rewrite header_set_lookup. change (canonical_key "WWW-Authenticate") with "Www-Authenticate".
    change (rw_header new_rw) with (∅ : headers). unfold headers. rewrite lookup_empty.
    destruct (decide ("Www-Authenticate" = k)) as [<-|Hk].
    + split; [intros [?|(_ & _ & _ & [= <-])]; auto|]. intros [?|(_ & -> & _)]; auto.
    + split; [intros [?|(_ & _ & _ & ?)]; [by left|done]|]. intros [?|(-> & _)]; [by left|done].
  - rewrite map_to_list_empty. unfold set_headers. cbn [fold_left]. change (rw_header new_rw) with (∅ : headers).
    unfold headers. rewrite lookup_empty. split; [intros [?|(_ & _ & _ & ?)]; [by left|done]|]. intros [?|(_ & _ & ?)]; [by left|done].
Qed.

Definition location_headers (loc : string) : headers := rw_header (redirect_headers new_rw loc).
Lemma location_headers_lookup loc k : location_headers loc !! k =
  if decide (k = "Referrer-Policy") then Some ["origin"]
  else if decide (k = "Pragma") then Some ["no-cache"]
  else if decide (k = "Cache-Control") then Some ["no-store"]
  else if decide (k = "Location") then Some [loc] else None.
Proof. unfold location_headers. rewrite redirect_headers_lookup. done. Qed.
Definition sent_redirect (loc : string) : rw :=
  {| rw_header := location_headers loc; rw_sent := Some (303%Z, location_headers loc); rw_body := "" |}.
Lemma write_redirect_sent uri params frag loc : redirect_location uri params frag = Some loc ->
  write_redirect new_rw uri params frag = Some (sent_redirect loc, true).
Proof. intros H. rewrite write_redirect_fresh by done. by rewrite H. Qed.

Definition sent_document (status : Z) (j : json) : rw :=
  {| rw_header := rw_header (json_headers new_rw); rw_sent := Some (status, rw_header (json_headers new_rw));
     rw_body := json_encode j |}.
Lemma write_document j : write new_rw j 200 = Some (sent_document 200 j, true).
Proof. rewrite write_fresh by (done || (unfold valid_status; lia)). done. Qed.
Lemma document_headers_lookup k l : rw_header (json_headers new_rw) !! k = Some l <-> json_header k l.
Proof.
  rewrite json_headers_lookup. change (rw_header new_rw) with (∅ : headers). unfold headers. rewrite lookup_empty.
  split; [intros [?|(_ & _ & _ & ?)]; [done|done]|auto].
Qed.

Lemma redirect_error_written rq e loc : redirect_error rq e -> aq_redirect_uri rq <> "" ->
  redirect_location (aq_redirect_uri rq) (error_map e) (seqb (aq_response_type rq) "token") = Some loc ->
  write_error new_rw (GErr e) = Some (sent_redirect loc, true).
Proof.
  intros (b & Hb & ->) Hne Hl. unfold write_error, write_error_order. cbn [e_redirect_uri set_error_redirect e_headers].
  apply seqb_false in Hne. rewrite Hne. cbn [negb].
  assert (e_headers b = ∅) as -> by (by destruct Hb as [-> | ->]). rewrite map_to_list_empty. cbn [fold_left e_use_fragment].
  by apply write_redirect_sent.
Qed.

(** The response to each kind of answer. *)
Inductive sent : outcome -> rw -> Prop :=
| sent_error e w : plain_error e ->
    w = {| rw_header := error_headers e; rw_sent := Some (e_status e, error_headers e); rw_body := json_encode (error_json e) |} ->
    sent (OError e) w
| sent_redirect_error rq e loc : redirect_error rq e -> aq_redirect_uri rq <> "" ->
    redirect_location (aq_redirect_uri rq) (error_map e) (seqb (aq_response_type rq) "token") = Some loc ->
    sent (OError e) (sent_redirect loc)
| sent_token r : tr_redirect_uri r = "" -> sent (OToken r) (sent_document 200 (token_json r))
| sent_implicit r loc : tr_redirect_uri r <> "" -> redirect_location (tr_redirect_uri r) (token_map r) true = Some loc ->
    sent (OToken r) (sent_redirect loc)
| sent_code r loc : redirect_location (cr_redirect_uri r) (code_map r) false = Some loc ->
    sent (OCode r) (sent_redirect loc)
| sent_intro r : sent (OIntro r) (sent_document 200 (introspection_json r))
| sent_revoked : sent ORevoked {| rw_header := ∅; rw_sent := Some (200%Z, ∅); rw_body := "" |}
| sent_notice : sent ONotice {| rw_header := ∅; rw_sent := Some (200%Z, ∅); rw_body := notice |}
| sent_not_found h : (h !! "Location" = None /\ h !! "Www-Authenticate" = None) ->
    sent ONotFound {| rw_header := h; rw_sent := Some (404%Z, h); rw_body := "404 page not found" +:+ str1 "010" |}.

Lemma write_answer o : answer o -> exists w, write_outcome new_rw o = Some w /\ sent o w.
Proof.
  intros [e He|rq e He Hne Hu|r Hr|r Hr Hu|r Hu|r Hr| | |]; cbn [write_outcome].
  - rewrite write_error_document by done. eexists. split; [reflexivity|]. by econstructor.
  - destruct (redirect_location_some (aq_redirect_uri rq) (error_map e) (seqb (aq_response_type rq) "token") Hu) as [loc Hl].
    rewrite (redirect_error_written rq e loc) by done. eexists. split; [reflexivity|]. by econstructor.
  - unfold write_token_response. rewrite Hr. change (negb (seqb "" "")) with false. cbv iota. rewrite write_document.
    eexists. split; [reflexivity|]. by constructor.
  - destruct (redirect_location_some (tr_redirect_uri r) (token_map r) true Hu) as [loc Hl].
    unfold write_token_response. rewrite (proj2 (seqb_false _ _) Hr). cbn [negb]. rewrite (write_redirect_sent _ _ _ loc) by done.
    eexists. split; [reflexivity|]. by constructor.
  - destruct (redirect_location_some (cr_redirect_uri r) (code_map r) false Hu) as [loc Hl].
    unfold write_code_response. rewrite (write_redirect_sent _ _ _ loc) by done.
    eexists. split; [reflexivity|]. by constructor.
  - unfold write_introspection_response.
    assert (ir_active r && negb (known_token_type (ir_token_type r)) = false) as ->.
    { destruct (ir_active r); [|done]. by rewrite Hr. }
    rewrite write_document. eexists. split; [reflexivity|]. by constructor.
  - eexists. split; [reflexivity|]. constructor.
  - eexists. split; [vm_compute; reflexivity|].
    change notice with (notice). constructor.
  - eexists. split; [reflexivity|]. apply sent_not_found. vm_compute. done.
Qed.

Lemma serve_sent ev s r s' w : serve_http ev s r new_rw = (s', Some w) ->
  exists o, handle ev s r = Done s' o /\ answer o /\ sent o w.
Proof.
  unfold serve_http. destruct (handle ev s r) as [s1 o|s1] eqn:E; [|done]. intros [= <- Hw].
  pose proof (handle_answer _ _ _ _ _ E) as Ha. destruct (write_answer o Ha) as (w' & Hw' & Hs).
  rewrite Hw' in Hw. injection Hw as <-. eauto.
Qed.

(** ** C15 *)
Lemma c15_proof : forall ev s r s' w, serve_http ev s r new_rw = (s', Some w) ->
  exists code h, rw_sent w = Some (code, h) /\
   ((not_cacheable h /\ (h !! "Location" <> None -> h !! "Referrer-Policy" = Some ["origin"])) \/
    (h !! "Location" = None /\ h !! "Www-Authenticate" = None /\ fixed_body (rw_body w))).
Proof.
  intros ev s r s' w H. apply serve_sent in H as (o & _ & _ & Hs).
  assert (Hdoc : forall k l, json_header k l -> rw_header (json_headers new_rw) !! k = Some l) by (intros; by apply document_headers_lookup).
  assert (Hd : not_cacheable (rw_header (json_headers new_rw))).
  { split; apply Hdoc; unfold json_header; auto. }
  assert (Hr : forall loc, not_cacheable (location_headers loc) /\ location_headers loc !! "Referrer-Policy" = Some ["origin"]).
  { intros loc. split; [split|]; by rewrite location_headers_lookup. }
  destruct Hs as [e w He ->|rq e loc|r'|r' loc|r' loc|r'| | |h Hh]; cbn [rw_sent sent_redirect sent_document rw_body];
    do 2 eexists; (split; [reflexivity|]).
  - left. split.
    + split; (apply error_headers_lookup; [done|]); left; unfold json_header; auto.
    + intros Hl. exfalso. destruct (error_headers e !! "Location") as [l|] eqn:E; [|done].
      apply error_headers_lookup in E; [|done]. destruct E as [[[? _]|[[? _]|[? _]]]|[? _]]; done.
  - left. destruct (Hr loc). done.
  - left. split; [done|]. vm_compute. done.
  - left. destruct (Hr loc). done.
  - left. destruct (Hr loc). done.
  - left. split; [done|]. vm_compute. done.
  - right. split; [done|]. split; [done|]. by left.
  - right. split; [done|]. split; [done|]. by right; left.
  - right. destruct Hh as [? ?]. split; [done|]. split; [done|]. by right; right.
Qed.
