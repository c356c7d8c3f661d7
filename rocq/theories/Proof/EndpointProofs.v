(** The theorems on the authorization endpoint with its path spelled out (C18, C20, C21, C75). *)
From Verif.Model Require Import Server.
From Verif.Spec Require Import ScopeSpec WireSpec RequestSpec ServerSpec FormSpec.
From Verif.Proof Require Import StrFacts RequestProofs RequestParse ServerFacts ServerProofs FormProofs.

Lemma c18_redirect_at : forall ev s r s' w loc locs,
  serve_http ev s r new_rw = (s', Some w) -> header_values w "Location" = loc :: locs ->
  locs = [] /\ status w = 303%Z /\ endpoint r "authorize" /\
  exists c params,
    sv_clients s !! form_param r "client_id" = Some c /\
    query_unescape (form_param r "redirect_uri") = Some (en_redirect_uri c) /\
    redirect_location (en_redirect_uri c) params (String.eqb (form_param r "response_type") "token") = Some loc.
Proof. intros ev s r s' w loc locs H1 H2. rewrite endpoint_authorize. exact (c18_redirect ev s r s' w loc locs H1 H2). Qed.

Lemma c18_refused_at : forall ev s r,
  endpoint r "authorize" ->
  (forall c, sv_clients s !! form_param r "client_id" = Some c ->
     query_unescape (form_param r "redirect_uri") <> Some (en_redirect_uri c)) ->
  exists w, serve_http ev s r new_rw = (s, Some w) /\
    (error_document w 400 "invalid_request" \/ error_document w 401 "invalid_client").
Proof. intros ev s r H. apply endpoint_authorize in H. exact (c18_refused ev s r H). Qed.

Lemma c20_endpoints_at : forall ev s r1 r2 w, same_but_url_query r1 r2 ->
  well_formed_query (rq_query r1) -> well_formed_query (rq_query r2) ->
  ~ endpoint r1 "authorize" ->
  serve_http ev s r1 w = serve_http ev s r2 w.
Proof. intros ev s r1 r2 w H1 H2 H3 H. rewrite endpoint_authorize in H. exact (c20_endpoints ev s r1 r2 w H1 H2 H3 H). Qed.

Lemma c21_get_at : forall ev s r, rq_method r = "GET" -> endpoint r "authorize" ->
  exists w, serve_http ev s r new_rw = (s, Some w) /\ header_values w "Location" = [] /\
    ((status w = 200%Z /\ fixed_body (rw_body w)) \/ exists code name, error_document w code name).
Proof. intros ev s r H1 H. apply endpoint_authorize in H. exact (c21_get ev s r H1 H). Qed.

Lemma c21_credentials_at : forall ev s r s' o, handle ev s r = Done s' o ->
  endpoint r "authorize" ->
  s' <> s \/ (exists t, o = OToken t) \/ (exists c, o = OCode c) ->
  rq_method r = "POST" /\
  exists u, sv_users s !! body_param r "username" = Some u /\ en_secret u = body_param r "password".
Proof. intros ev s r s' o H1 H. apply endpoint_authorize in H. exact (c21_credentials ev s r s' o H1 H). Qed.

Lemma c75_unreadable_at : forall ev s r name, unreadable r -> endpoint r name ->
  In name ["authorize"; "token"; "introspect"; "revoke"] ->
  exists w, serve_http ev s r new_rw = (s, Some w) /\ error_document w 400 "invalid_request".
Proof.
  intros ev s r name Hu He Hi. apply endpoint_spec in He; [exact (c75_unreadable ev s r name Hu He Hi)|].
  repeat destruct Hi as [<-|Hi]; [done..|destruct Hi].
Qed.
