(** Proofs about requests and redirects. *)
From Verif.Model Require Import Server.
From Verif.Spec Require Import ScopeSpec WireSpec RequestSpec.
From Verif.Proof Require Import StrFacts Base64Facts UrlFacts UrlParse JsonFacts ScopeFacts ScopeProofs WireFacts WireProofs Redirect ServerFacts Steps.

Lemma served_handled ev s r s' w : serve_http ev s r new_rw = (s', Some w) ->
  exists o, handled ev s r (Done s' o) /\ write_outcome new_rw o = Some w.
Proof.
  unfold serve_http. pose proof (handle_handled ev s r) as H.
  destruct (handle ev s r) as [s1 o|s1]; intros E; [|done]. injection E as -> E. eauto.
Qed.

Lemma write_plain e : plain_error e -> exists w, write_outcome new_rw (OError e) = Some w /\
  status w = e_status e /\ error_document w (e_status e) (e_name e) /\
  header_values w "Www-Authenticate" = (if decide (e_name e = "invalid_client") then [basic_challenge] else []) /\
  json_object w (("error", JStr (e_name e)) :: omit_string "error_description" (e_description e)).
Proof.
  intros H. pose proof (plain_error_shape e H) as Hs. unfold write_outcome. rewrite write_error_document by done.
  eexists. split; [reflexivity|]. cbn [fst option_map].
  assert (Hh : forall k, header_values {| rw_header := error_headers e; rw_sent := Some (e_status e, error_headers e);
     rw_body := json_encode (error_json e) |} k = default [] (error_headers e !! k)) by done.
  assert (Hl : error_headers e !! "Location" = None).
  { destruct (error_headers e !! "Location") as [l|] eqn:E; [|done].
    apply error_headers_lookup in E; [|done]. destruct E as [[[? _]|[[? _]|[? _]]]|[? _]]; done. }
  assert (Hb : json_object {| rw_header := error_headers e; rw_sent := Some (e_status e, error_headers e);
     rw_body := json_encode (error_json e) |} (("error", JStr (e_name e)) :: omit_string "error_description" (e_description e))).
  { destruct Hs as (_ & H2 & H3 & H4 & H5 & _ & _).
    assert (error_json e = JObj (("error", JStr (e_name e)) :: omit_string "error_description" (e_description e))) as He.
    { unfold error_json. rewrite H2, H3, H4, H5. unfold omit_string at 1 2 4. unfold omit_scope.
      change (seqb "" "") with true. change (scope_empty None) with true. cbv iota.
      rewrite app_nil_r. done. }
    unfold json_object. cbn [rw_body]. split.
    - rewrite He. destruct H as (d & Hd & Hc).
      assert (Hu : valid_utf8 (e_description e)).
      { destruct Hc as [-> |[-> |[-> |[-> |[-> | ->]]]]]; by apply valid_utf8_ascii. }
      assert (Hn : valid_utf8 (e_name e)).
      { destruct Hc as [-> |[-> |[-> |[-> |[-> | ->]]]]]; by apply valid_utf8_ascii. }
      apply json_roundtrip_nl.
      + apply json_ok_obj. constructor; [split; [by apply valid_utf8_ascii|done]|].
        unfold omit_string. destruct (seqb (e_description e) ""); repeat constructor; [by apply valid_utf8_ascii|done].
      + unfold omit_string. by destruct (seqb (e_description e) "").
    - unfold omit_string. destruct (seqb (e_description e) ""); cbn; repeat constructor; set_solver. }
  split; [done|]. split; [|split].
  - split; [done|]. split; [by rewrite Hh, Hl|]. eexists. split; [exact Hb|]. by left.
  - rewrite Hh. destruct (decide (e_name e = "invalid_client")) as [Hn|Hn].
    + assert (error_headers e !! "Www-Authenticate" = Some [basic_challenge]) as ->; [|done].
      apply error_headers_lookup; [done|]. by right.
    + destruct (error_headers e !! "Www-Authenticate") as [l|] eqn:E; [|done].
      apply error_headers_lookup in E; [|done]. destruct E as [[[? _]|[[? _]|[? _]]]|(_ & _ & ?)]; done.
  - exact Hb.
Qed.

Lemma redirect_error_params rq e : redirect_error rq e ->
  error_map e !! "state" = if seqb (aq_state rq) "" then None else Some (aq_state rq).
Proof.
  intros (b & Hb & ->). unfold error_map, put, set_error_redirect. cbn [e_name e_description e_state e_scope e_uri e_realm].
  destruct Hb as [-> | ->]; destruct (seqb (aq_state rq) "") eqn:E; vm_compute; try reflexivity; rewrite ?E; reflexivity.
Qed.
Lemma token_map_state t u st : token_map (set_token_redirect t u st) !! "state" = if seqb st "" then None else Some st.
Proof.
  unfold token_map, put, set_token_redirect. cbn [tr_token_type tr_access_token tr_expires_in tr_refresh_token tr_scope tr_state].
  destruct (seqb st ""); [|by rewrite lookup_insert].
  destruct (tr_scope t), (seqb (tr_refresh_token t) ""); by rewrite ?lookup_insert_ne, lookup_empty by done.
Qed.
Lemma code_map_state k u st : code_map (new_code_response k u st) !! "state" = if seqb st "" then None else Some st.
Proof.
  unfold code_map, put, new_code_response. cbn [cr_state cr_code]. destruct (seqb st ""); [by rewrite lookup_insert_ne, lookup_empty|by rewrite lookup_insert].
Qed.

Lemma at_authorize_uri s r req c : at_authorize s r req c ->
  aq_redirect_uri req <> "" /\ is_Some (parse_request_uri (aq_redirect_uri req)) /\
  form_param r "client_id" = aq_client_id req /\
  query_unescape (form_param r "redirect_uri") = Some (aq_redirect_uri req) /\
  form_param r "response_type" = aq_response_type req /\ form_param r "state" = aq_state req /\
  aq_scope req = parse_scope (form_param r "scope").
Proof.
  intros (_ & H & _). apply parse_authorization_inl in H as (_ & (f & Hf & H1 & _ & H2 & H3 & _ & H4 & H5) & H6 & H7).
  unfold form_param. rewrite Hf. done.
Qed.

Lemma no_location_plain e w loc locs : plain_error e -> write_outcome new_rw (OError e) = Some w ->
  header_values w "Location" = loc :: locs -> False.
Proof.
  intros He Hw Hl. destruct (write_plain e He) as (w' & Hw' & _ & (_ & Hn & _) & _).
  rewrite Hw in Hw'. injection Hw' as <-. congruence.
Qed.
Lemma redirect_header loc k : header_values (sent_redirect loc) k = default [] (location_headers loc !! k).
Proof. done. Qed.
Lemma redirect_location_header loc : header_values (sent_redirect loc) "Location" = [loc].
Proof. rewrite redirect_header, location_headers_lookup. done. Qed.

Lemma no_refresh_in_error_map e : error_map e !! "refresh_token" = None.
Proof.
  unfold error_map, put.
  destruct (seqb (e_name e) ""), (seqb (e_description e) ""), (seqb (e_state e) ""), (Nat.ltb 0 _), (seqb (e_uri e) ""), (seqb (e_realm e) "");
    by rewrite ?lookup_insert_ne, lookup_empty by done.
Qed.
Lemma no_refresh_in_token_map t : tr_refresh_token t = "" -> token_map t !! "refresh_token" = None.
Proof.
  intros H. unfold token_map, put. rewrite H. change (seqb "" "") with true. cbv iota.
  destruct (seqb (tr_state t) ""), (tr_scope t); by rewrite ?lookup_insert_ne, lookup_empty by done.
Qed.
Lemma no_refresh_in_code_map c : code_map c !! "refresh_token" = None.
Proof. unfold code_map, put. destruct (seqb (cr_state c) ""); by rewrite ?lookup_insert_ne, lookup_empty by done. Qed.

Lemma redirected_full ev s r s' w loc locs : serve_http ev s r new_rw = (s', Some w) ->
  header_values w "Location" = loc :: locs ->
  exists req c params, at_authorize s r req c /\ rq_method r = "POST" /\ w = sent_redirect loc /\ locs = [] /\
    redirect_location (aq_redirect_uri req) params (seqb (aq_response_type req) "token") = Some loc /\
    params !! "state" = (if seqb (aq_state req) "" then None else Some (aq_state req)) /\
    params !! "refresh_token" = None.
Proof.
  intros H Hl. apply served_handled in H as (o & H & Hw). inversion H; subst; clear H.
  - exfalso. by eapply no_location_plain.
  - match goal with A : at_authorize _ _ _ _ |- _ => destruct (at_authorize_uri _ _ _ _ A) as (Hne & Hu & _) end.
    destruct (redirect_location_some (aq_redirect_uri req) (error_map e) (seqb (aq_response_type req) "token") Hu) as [loc' Hl'].
    unfold write_outcome in Hw. erewrite redirect_error_written in Hw by done. injection Hw as <-.
    rewrite redirect_location_header in Hl. injection Hl as <- <-. exists req, c, (error_map e).
    split_and!; try done; [by apply redirect_error_params|apply no_refresh_in_error_map].
  - injection Hw as <-. done.
  - match goal with A : at_authorize _ _ _ _ |- _ => destruct (at_authorize_uri _ _ _ _ A) as (Hne & Hu & _) end.
    destruct (redirect_location_some (aq_redirect_uri req) (token_map (set_token_redirect t (aq_redirect_uri req) (aq_state req))) true Hu) as [loc' Hl'].
    unfold write_outcome, write_token_response in Hw. cbn [tr_redirect_uri set_token_redirect] in Hw.
    rewrite (proj2 (seqb_false _ _) Hne) in Hw. cbn [negb] in Hw. rewrite (write_redirect_sent _ _ _ loc') in Hw by done.
    injection Hw as <-. rewrite redirect_location_header in Hl. injection Hl as <- <-.
    eexists req, c, _. split_and!; try done.
    + match goal with A : aq_response_type req = _ |- _ => rewrite A end. exact Hl'.
    + apply token_map_state.
    + apply no_refresh_in_token_map. match goal with A : issued_access _ _ _ _ _ _ _ _ |- _ => destruct A as (? & ? & _ & -> & _) end. done.
  - match goal with A : at_authorize _ _ _ _ |- _ => destruct (at_authorize_uri _ _ _ _ A) as (Hne & Hu & _) end.
    destruct (redirect_location_some (aq_redirect_uri req) (code_map (new_code_response (token_string k) (aq_redirect_uri req) (aq_state req))) false Hu) as [loc' Hl'].
    unfold write_outcome, write_code_response in Hw. cbn [cr_redirect_uri new_code_response] in Hw.
    rewrite (write_redirect_sent _ _ _ loc') in Hw by done.
    injection Hw as <-. rewrite redirect_location_header in Hl. injection Hl as <- <-.
    eexists req, c, _. split_and!; try done.
    + match goal with A : aq_response_type req = _ |- _ => rewrite A end. exact Hl'.
    + apply code_map_state.
    + apply no_refresh_in_code_map.
  - exfalso. unfold write_outcome, write_token_response in Hw.
    match goal with A : issued_both _ _ _ _ _ _ _ _ |- _ => destruct A as (? & ? & ? & ? & _ & _ & -> & _) end.
    cbn [tr_redirect_uri] in Hw. change (negb (seqb "" "")) with false in Hw. cbv iota in Hw.
    rewrite write_document in Hw. injection Hw as <-. done.
  - exfalso. unfold write_outcome, write_token_response in Hw.
    match goal with A : issued_both _ _ _ _ _ _ _ _ |- _ => destruct A as (? & ? & ? & ? & _ & _ & -> & _) end.
    cbn [tr_redirect_uri] in Hw. change (negb (seqb "" "")) with false in Hw. cbv iota in Hw.
    rewrite write_document in Hw. injection Hw as <-. done.
  - exfalso. unfold write_outcome, write_token_response in Hw.
    match goal with A : issued_both _ _ _ _ _ _ _ _ |- _ => destruct A as (? & ? & ? & ? & _ & _ & -> & _) end.
    cbn [tr_redirect_uri] in Hw. change (negb (seqb "" "")) with false in Hw. cbv iota in Hw.
    rewrite write_document in Hw. injection Hw as <-. done.
  - exfalso. eapply no_location_plain; [|exact Hw|exact Hl]. auto.
  - exfalso. unfold write_outcome, write_token_response in Hw.
    match goal with A : issued_both _ _ _ _ _ _ _ _ |- _ => destruct A as (? & ? & ? & ? & _ & _ & -> & _) end.
    cbn [tr_redirect_uri] in Hw. change (negb (seqb "" "")) with false in Hw. cbv iota in Hw.
    rewrite write_document in Hw. injection Hw as <-. done.
  - injection Hw as <-. done.
  - exfalso. eapply no_location_plain; [|exact Hw|exact Hl]. auto.
  - exfalso. unfold write_outcome in Hw.
    match goal with |- _ => idtac end.
    assert (Ha : answer (OIntro (match sv_refresh s' !! signature_string t with
       | Some f => describe f "refresh_token"
       | None => match sv_access s' !! signature_string t with
                 | Some a => describe a "access_token"
                 | None => new_introspection_response false None "" "" ""
                 end
       end))).
    { constructor. by destruct (sv_refresh s' !! _), (sv_access s' !! _). }
    apply write_answer in Ha as (w' & Hw' & Hs). unfold write_outcome in Hw'. rewrite Hw' in Hw. injection Hw as ->.
    inversion Hs; subst. done.
  - injection Hw as <-. done.
Qed.

Lemma redirected ev s r s' w loc locs : serve_http ev s r new_rw = (s', Some w) ->
  header_values w "Location" = loc :: locs ->
  exists req c params, at_authorize s r req c /\ rq_method r = "POST" /\ w = sent_redirect loc /\ locs = [] /\
    redirect_location (aq_redirect_uri req) params (seqb (aq_response_type req) "token") = Some loc /\
    params !! "state" = (if seqb (aq_state req) "" then None else Some (aq_state req)).
Proof.
  intros H Hl. destruct (redirected_full _ _ _ _ _ _ _ H Hl) as (req & c & params & H1 & H2 & H3 & H4 & H5 & H6 & _).
  by exists req, c, params.
Qed.

(** ** C18 *)
Lemma c18_redirect : forall ev s r s' w loc locs,
  serve_http ev s r new_rw = (s', Some w) -> header_values w "Location" = loc :: locs ->
  locs = [] /\ status w = 303%Z /\ last_segment (rq_path r) = "authorize" /\
  exists c params,
    sv_clients s !! form_param r "client_id" = Some c /\
    query_unescape (form_param r "redirect_uri") = Some (en_redirect_uri c) /\
    redirect_location (en_redirect_uri c) params (String.eqb (form_param r "response_type") "token") = Some loc.
Proof.
  intros ev s r s' w loc locs H Hl. destruct (redirected _ _ _ _ _ _ _ H Hl) as (req & c & params & Hat & _ & -> & -> & Hloc & _).
  destruct (at_authorize_uri _ _ _ _ Hat) as (_ & _ & Hc & Hu & Ht & _).
  destruct Hat as (Hseg & _ & _ & Hcl & He). rewrite Hc, Hu, Ht. split; [done|]. split; [done|]. split; [done|].
  exists c, params. rewrite He. done.
Qed.

Lemma c18_target : forall ev s r s' w loc locs,
  serve_http ev s r new_rw = (s', Some w) -> header_values w "Location" = loc :: locs ->
  exists c, sv_clients s !! form_param r "client_id" = Some c /\
  (ascii_text (en_redirect_uri c) -> without "#" (en_redirect_uri c) -> en_redirect_uri c <> "*" ->
   exists u u', parse_request_uri (en_redirect_uri c) = Some u /\
     parse_request_uri (before_fragment loc) = Some u' /\ same_target u u').
Proof.
  intros ev s r s' w loc locs H Hl. destruct (redirected _ _ _ _ _ _ _ H Hl) as (req & c & params & Hat & _ & -> & -> & Hloc & _).
  destruct (at_authorize_uri _ _ _ _ Hat) as (_ & [u Hu] & Hc & _).
  destruct Hat as (Hseg & _ & _ & Hcl & He). exists c. rewrite Hc, He. split; [done|]. intros Ha Hh Hs.
  exists u. destruct (seqb (aq_response_type req) "token").
  - destruct (c17_target _ _ params Hu Ha Hs Hh) as (loc' & u' & H1 & H2 & H3 & _).
    rewrite Hloc in H1. injection H1 as <-. eauto.
  - destruct (c16_query _ _ params Hu Ha Hs) as (loc' & u' & H1 & H2 & H3 & _).
    rewrite Hloc in H1. injection H1 as <-.
    pose proof (c16_no_fragment _ _ _ _ Hu Hh Hloc) as Hn. apply without_contains in Hn.
    unfold before_fragment. rewrite (proj2 (cut_none _ _) Hn). eauto.
Qed.

Lemma c18_refused : forall ev s r,
  last_segment (rq_path r) = "authorize" ->
  (forall c, sv_clients s !! form_param r "client_id" = Some c ->
     query_unescape (form_param r "redirect_uri") <> Some (en_redirect_uri c)) ->
  exists w, serve_http ev s r new_rw = (s, Some w) /\
    (error_document w 400 "invalid_request" \/ error_document w 401 "invalid_client").
Proof.
  intros ev s r Hseg Hc.
  assert (Hm : exists e, handle ev s r = Done s (OError e) /\ plain_error e /\
     ((e_status e = 400%Z /\ e_name e = "invalid_request") \/ (e_status e = 401%Z /\ e_name e = "invalid_client"))).
  { unfold handle. rewrite Hseg. change (seqb "authorize" "authorize") with true. cbv iota zeta.
    unfold authorization_endpoint. destruct (parse_authorization_request r) as [req|e] eqn:Ep.
    2:{ exists e. split; [done|]. split; [by eapply parse_authorization_inr|]. left.
        unfold parse_authorization_request in Ep. split_match Ep; by injection Ep as <-. }
    apply parse_authorization_inl in Ep as (_ & (f & Hf & _ & _ & _ & H3 & _ & H4 & _) & _).
    unfold form_param in Hc. rewrite Hf, <- H3, H4 in Hc.
    destruct (known_response_type (aq_response_type req)); cbn [negb]; [|eexists; split; [done|]; auto].
    destruct (sv_clients s !! aq_client_id req) as [c|] eqn:Ec; [|eexists; split; [done|]; auto].
    destruct (seqb (en_redirect_uri c) (aq_redirect_uri req)) eqn:Eu; cbn [negb]; [|eexists; split; [done|]; auto].
    apply seqb_true in Eu. exfalso. apply (Hc c); [done|]. by rewrite Eu. }
  destruct Hm as (e & Hh & He & Hcase). destruct (write_plain e He) as (w & Hw & _ & Hd & _).
  exists w. unfold serve_http. rewrite Hh, Hw. split; [done|].
  destruct Hcase as [[E1 E2]|[E1 E2]]; rewrite E1, E2 in Hd; auto.
Qed.

(** ** C19 *)
Lemma echo_params params st : params !! "state" = (if seqb st "" then None else Some st) ->
  param_values params "state" = echo st.
Proof.
  intros H. unfold param_values, echo. rewrite H. destruct (seqb st "") eqn:E.
  - apply seqb_true in E as ->. done.
  - apply seqb_false in E. by destruct (decide (st = "")).
Qed.

Lemma c19_query : forall ev s r s' w loc locs,
  serve_http ev s r new_rw = (s', Some w) -> header_values w "Location" = loc :: locs ->
  form_param r "response_type" <> "token" ->
  exists uri, query_unescape (form_param r "redirect_uri") = Some uri /\
  (ascii_text uri -> without "#" uri -> uri <> "*" ->
   exists u u', parse_request_uri uri = Some u /\ parse_request_uri loc = Some u' /\ without "#" loc /\
     values_of (url_query u') "state" = values_of (url_query u) "state" ++ echo (form_param r "state")).
Proof.
  intros ev s r s' w loc locs H Hl Ht. destruct (redirected _ _ _ _ _ _ _ H Hl) as (req & c & params & Hat & _ & -> & -> & Hloc & Hst).
  destruct (at_authorize_uri _ _ _ _ Hat) as (_ & [u Hu] & _ & Huri & Hrt & Hs & _). rewrite Hs, Huri.
  exists (aq_redirect_uri req). split; [done|]. intros Ha Hh Hstar.
  rewrite Hrt in Ht. rewrite (proj2 (seqb_false _ _) Ht) in Hloc.
  destruct (c16_query _ _ params Hu Ha Hstar) as (loc' & u' & H1 & H2 & H3 & H4).
  rewrite Hloc in H1. injection H1 as <-. exists u, u'. split; [done|]. split; [done|].
  split; [exact (c16_no_fragment _ _ _ _ Hu Hh Hloc)|]. rewrite <- (echo_params params) by done.
  destruct H4 as (v & Hv & Hk). unfold url_query at 1. rewrite Hv. apply Hk.
Qed.

Lemma c19_fragment : forall ev s r s' w loc locs,
  serve_http ev s r new_rw = (s', Some w) -> header_values w "Location" = loc :: locs ->
  form_param r "response_type" = "token" ->
  exists uri, query_unescape (form_param r "redirect_uri") = Some uri /\
  (without "#" uri ->
   exists v, parse_query (fragment_of loc) = (v, true) /\
     values_of v "state" = map percent_encoded (echo (form_param r "state"))).
Proof.
  intros ev s r s' w loc locs H Hl Ht. destruct (redirected _ _ _ _ _ _ _ H Hl) as (req & c & params & Hat & _ & -> & -> & Hloc & Hst).
  destruct (at_authorize_uri _ _ _ _ Hat) as (_ & [u Hu] & _ & Huri & Hrt & Hs & _). rewrite Hs, Huri.
  exists (aq_redirect_uri req). split; [done|]. intros Hh.
  rewrite Hrt in Ht. rewrite Ht in Hloc. change (seqb "token" "token") with true in Hloc.
  destruct (c17_exact _ _ params Hu Hh) as (loc' & v & H1 & H2 & H3 & _).
  rewrite Hloc in H1. injection H1 as <-. exists v. split; [done|].
  rewrite <- (echo_params params) by done. rewrite <- H3. done.
Qed.
Lemma c19_fragment_plain : forall ev s r s' w loc locs,
  serve_http ev s r new_rw = (s', Some w) -> header_values w "Location" = loc :: locs ->
  form_param r "response_type" = "token" -> plain_text (form_param r "state") ->
  exists uri, query_unescape (form_param r "redirect_uri") = Some uri /\
  (without "#" uri ->
   exists v, parse_query (fragment_of loc) = (v, true) /\
     values_of v "state" = echo (form_param r "state")).
Proof.
  intros ev s r s' w loc locs H Hl Ht Hp. destruct (c19_fragment _ _ _ _ _ _ _ H Hl Ht) as (uri & Hu & Hv).
  exists uri. split; [done|]. intros Hh. destruct (Hv Hh) as (v & Hq & He). exists v. split; [done|].
  rewrite He. unfold echo. destruct (decide _); [done|]. cbn [map]. f_equal. by apply percent_encoded_plain.
Qed.
