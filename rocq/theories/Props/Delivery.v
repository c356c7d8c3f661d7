(** C80, C81: answers that do not arrive, and requests that are sent again. *)
From Verif.Model Require Import Server Writer.
From Verif.Spec Require Import TokenSpec ScopeSpec WireSpec RequestSpec ServerSpec HistorySpec WriterSpec Cases HistoryCases.
From Verif.Proof Require Import ServerProofs GrantProofs EffectProofs CaseProofs WriterProofs RepeatProofs HistoryCase.

#[local] Open Scope string_scope.
#[local] Opaque handle parse_token.

(** C80. What a request does to the server, and which calls it makes on the
    response writer, does not depend on what the writer does with them. *)
Theorem C80_serve : forall ev s r,
  (exists s' w0 calls, serve_http ev s r new_rw = (s', Some w0) /\ (one_answer calls \/ short_answer calls) /\
   forall W (wr : writer W) w,
     serve_on wr ev r s w = (s', fst (play wr w calls), match snd (play wr w calls) with Panics => None | _ => Some tt end)) \/
  (serve_http ev s r new_rw = (s, None) /\ forall W (wr : writer W) w, serve_on wr ev r s w = (s, w, None)).
Proof. exact c80_serve. Qed.
Print Assumptions C80_serve.

Theorem C80_authorize : forall now s r required,
  (authorize now s r required new_rw = Some (true, new_rw) /\
   forall W (wr : writer W) w, authorize_on wr now r required s w = (s, w, Some true)) \/
  (exists w0 calls, authorize now s r required new_rw = Some (false, w0) /\ one_answer calls /\
   forall W (wr : writer W) w,
     authorize_on wr now r required s w = (s, fst (play wr w calls), match snd (play wr w calls) with Panics => None | _ => Some false end)).
Proof. exact c80_authorize. Qed.
Print Assumptions C80_authorize.

(** With the response writer of net/http this is the answer the other theorems speak about. *)
Theorem C80_net_http : forall ev s r w s' w', serve_http ev s r w = (s', Some w') -> serve_on net_http ev r s w = (s', w', Some tt).
Proof. exact c80_net_http. Qed.
Print Assumptions C80_net_http.

Theorem C80_net_http_authorize : forall now s r required w b w', authorize now s r required w = Some (b, w') ->
  authorize_on net_http now r required s w = (s, w', Some b).
Proof. exact c80_net_http_authorize. Qed.
Print Assumptions C80_net_http_authorize.

(** When the connection takes only [n] bytes of the body, the client sees the
    status, the headers and these bytes, and the server has done all its work. *)
Theorem C80_broken_connection : forall ev s r s' w' n, serve_http ev s r new_rw = (s', Some w') ->
  exists w2 n2, serve_on breaking ev r s (new_rw, n) = (s', (w2, n2), Some tt) /\
    rw_sent w2 = rw_sent w' /\ rw_body w2 = substring 0 n (rw_body w').
Proof. exact c80_breaking. Qed.
Print Assumptions C80_broken_connection.

(** The functions that write a response make one complete answer and return the
    writer's error, or write nothing and return an error. *)
Theorem C80_write : forall obj status, (100 <= status <= 999)%Z ->
  exists calls, one_answer calls /\ sends (fun W wr => write_on wr obj status) calls.
Proof. exact c80_write. Qed.
Print Assumptions C80_write.

Theorem C80_write_redirect : forall uri params fragment,
  (is_Some (parse_request_uri uri) ->
   exists calls, one_answer calls /\ sends (fun W wr => write_redirect_on wr uri params fragment) calls) /\
  (parse_request_uri uri = None -> gives_up (fun W wr => write_redirect_on wr uri params fragment)).
Proof. exact c80_redirect. Qed.
Print Assumptions C80_write_redirect.

Theorem C80_write_error : forall e,
  (e_redirect_uri e = "" -> (100 <= e_status e <= 999)%Z ->
   exists calls, one_answer calls /\ sends (fun W wr => write_error_on wr (GErr e)) calls) /\
  (e_redirect_uri e <> "" -> is_Some (parse_request_uri (e_redirect_uri e)) ->
   exists calls, one_answer calls /\ sends (fun W wr => write_error_on wr (GErr e)) calls) /\
  (e_redirect_uri e <> "" -> parse_request_uri (e_redirect_uri e) = None ->
   gives_up (fun W wr => write_error_on wr (GErr e))).
Proof. exact c80_error. Qed.
Print Assumptions C80_write_error.

Theorem C80_write_other_error : exists calls, one_answer calls /\ sends (fun W wr => write_error_on wr GOther) calls.
Proof. exact c80_other_error. Qed.
Print Assumptions C80_write_other_error.

Theorem C80_write_token : forall r,
  (tr_redirect_uri r = "" \/ is_Some (parse_request_uri (tr_redirect_uri r)) ->
   exists calls, one_answer calls /\ sends (fun W wr => write_token_response_on wr r) calls) /\
  (tr_redirect_uri r <> "" -> parse_request_uri (tr_redirect_uri r) = None -> gives_up (fun W wr => write_token_response_on wr r)).
Proof. exact c80_token. Qed.
Print Assumptions C80_write_token.

Theorem C80_write_code : forall r,
  (is_Some (parse_request_uri (cr_redirect_uri r)) ->
   exists calls, one_answer calls /\ sends (fun W wr => write_code_response_on wr r) calls) /\
  (parse_request_uri (cr_redirect_uri r) = None -> gives_up (fun W wr => write_code_response_on wr r)).
Proof. exact c80_code. Qed.
Print Assumptions C80_write_code.

Theorem C80_write_introspection : forall r,
  (ir_active r = false \/ In (ir_token_type r) ["access_token"; "refresh_token"] ->
   exists calls, one_answer calls /\ sends (fun W wr => write_introspection_response_on wr r) calls) /\
  (ir_active r = true -> ~ In (ir_token_type r) ["access_token"; "refresh_token"] ->
   gives_up (fun W wr => write_introspection_response_on wr r)).
Proof. exact c80_introspection. Qed.
Print Assumptions C80_write_introspection.

Theorem C80_write_bearer : forall err, (forall e, err = GErr e -> (100 <= e_status e <= 999)%Z) ->
  exists calls, one_answer calls /\ sends (fun W wr => write_bearer_error_on wr err) calls.
Proof. exact c80_bearer. Qed.
Print Assumptions C80_write_bearer.

(** The connection breaks after 20 bytes of the answer to the redemption of a
    code, or the writer panics at the first call: the code is used in both cases. *)
Example C80_case :
  (exists w n, serve_on breaking (case_env 1001 rand2) (redeem_request case_auth (code_of step1)) (after step1) (new_rw, 20%nat) =
     (after step2, (w, n), Some tt) /\ rw_body w = "{""token_type"":""beare") /\
  serve_on panicking (case_env 1001 rand2) (redeem_request case_auth (code_of step1)) (after step1) tt = (after step2, tt, None).
Proof. split; [|vm_compute; reflexivity]. do 2 eexists. split; vm_compute; reflexivity. Qed.
(** An Error whose redirect URI is not a URI: nothing is written. *)
Example C80_case_gives_up : parse_request_uri "nowhere" = None /\
  write_error_on net_http (GErr (set_error_redirect (InvalidScope "") "nowhere" "" false)) new_rw = (new_rw, Some false).
Proof. split; vm_compute; reflexivity. Qed.

(** C81. A request that was refused is refused again, and changes nothing more. *)
Theorem C81_refused : forall ev s r s' e, handle ev s r = Done s' (OError e) -> handle ev s' r = Done s' (OError e).
Proof. exact c81_refused. Qed.
Print Assumptions C81_refused.

Theorem C81_introspection : forall ev s r s' x, handle ev s r = Done s' (OIntro x) ->
  s' = s /\ forall ev', handle ev' s' r = Done s' (OIntro x).
Proof. exact c81_introspection. Qed.
Print Assumptions C81_introspection.

Theorem C81_revocation : forall ev ev' s r s', handle ev s r = Done s' ORevoked -> handle ev' s' r = Done s' ORevoked.
Proof. exact c46_again. Qed.
Print Assumptions C81_revocation.

(** The client that lost the answer of a refresh cannot have it again, *)
Theorem C81_refresh : forall ev s r s' t, handle ev s r = Done s' (OToken t) ->
  endpoint r "token" -> body_param r "grant_type" = "refresh_token" ->
  forall ev', handle ev' s' r = Done s' (OError (InvalidGrant "unknown refresh token")).
Proof. exact c81_refresh. Qed.
Print Assumptions C81_refresh.

(** and one that lost the tokens for a code and asks again loses them for good. *)
Theorem C81_code : forall ev s r s' t, handle ev s r = Done s' (OToken t) ->
  endpoint r "token" -> body_param r "grant_type" = "authorization_code" ->
  forall ev', exists s'', handle ev' s' r = Done s'' (OError (InvalidGrant "unknown authorization code")) /\
    same_registry s s'' /\ sv_codes s'' = sv_codes s' /\
    (forall a, ~ access_token s'' (tr_access_token t) a) /\ (forall f, ~ refresh_token s'' (tr_refresh_token t) f) /\
    exists sg, names (server_secret s) (body_param r "code") sg /\
      without_code sg (sv_access s') (sv_access s'') /\ without_code sg (sv_refresh s') (sv_refresh s'').
Proof. exact c81_code. Qed.
Print Assumptions C81_code.

(** Other grants can be repeated: new tokens, and the first ones stay. *)
Theorem C81_tokens : forall ev s r s' t, handle ev s r = Done s' (OToken t) ->
  ~ (endpoint r "token" /\ In (body_param r "grant_type") ["authorization_code"; "refresh_token"]) ->
  forall ev', enough_random ev' s' 2 ->
  exists s'' t', handle ev' s' r = Done s'' (OToken t') /\ tr_scope t' = tr_scope t /\ tr_state t' = tr_state t /\
    tr_redirect_uri t' = tr_redirect_uri t /\ tr_expires_in t' = tr_expires_in t /\
    (forall sg, ~ names (server_secret s) (tr_access_token t') sg -> sv_access s'' !! sg = sv_access s' !! sg) /\
    (forall sg, ~ names (server_secret s) (tr_refresh_token t') sg -> sv_refresh s'' !! sg = sv_refresh s' !! sg) /\
    sv_codes s'' = sv_codes s'.
Proof. exact c81_tokens. Qed.
Print Assumptions C81_tokens.

Theorem C81_authorization : forall ev s r s' c, handle ev s r = Done s' (OCode c) ->
  forall ev', enough_random ev' s' 1 ->
  exists s'' c', handle ev' s' r = Done s'' (OCode c') /\ cr_state c' = cr_state c /\ cr_redirect_uri c' = cr_redirect_uri c /\
    (forall sg, ~ names (server_secret s) (cr_code c') sg -> sv_codes s'' !! sg = sv_codes s' !! sg) /\
    sv_access s'' = sv_access s' /\ sv_refresh s'' = sv_refresh s'.
Proof. exact c81_authorization. Qed.
Print Assumptions C81_authorization.

Example C81_case_refused : exists s e,
  handle (case_env 1003 rand3) (after step3) (redeem_request case_auth (code_of step1)) = Done s (OError e) /\ s <> after step3 /\
  handle (case_env 1003 rand3) s (redeem_request case_auth (code_of step1)) = Done s (OError e).
Proof. do 2 eexists. split; [vm_compute; reflexivity|]. split; [vm_compute; discriminate|]. vm_compute. reflexivity. Qed.
Example C81_case_refresh : exists t, step3 = Done (after step3) (OToken t) /\
  endpoint (refresh_request case_auth (refresh_of step2)) "token" /\
  body_param (refresh_request case_auth (refresh_of step2)) "grant_type" = "refresh_token".
Proof. eexists. split; [vm_compute; reflexivity|]. split; [apply (case_endpoint _ _ "token")|vm_compute; reflexivity]. Qed.
Example C81_case_code : exists t, step2 = Done (after step2) (OToken t) /\
  endpoint (redeem_request case_auth (code_of step1)) "token" /\
  body_param (redeem_request case_auth (code_of step1)) "grant_type" = "authorization_code" /\
  exists a, access_token (after step2) (tr_access_token t) a.
Proof.
  destruct (access_answer _ fact2) as (s & t & H & H1 & _). exists t. split; [by rewrite H|]. split; [apply (case_endpoint _ _ "token")|].
  split; [vm_compute; reflexivity|]. eexists. exists (sig_of (access_of step2)). rewrite <- H1. split; [exact names2|vm_compute; reflexivity].
Qed.
Example C81_case_tokens : exists s t,
  handle (case_env 1000 (rand1 +:+ rand2)) case_server (password_request case_auth "read") = Done s (OToken t) /\
  ~ (endpoint (password_request case_auth "read") "token" /\
     In (body_param (password_request case_auth "read") "grant_type") ["authorization_code"; "refresh_token"]) /\
  enough_random (case_env 1001 (rand2 +:+ rand3)) s 2.
Proof.
  do 2 eexists. split; [vm_compute; reflexivity|]. split.
  - intros [_ H]. replace (body_param _ "grant_type") with "password" in H by (vm_compute; reflexivity). destruct H as [H|[H|[]]]; discriminate H.
  - split; vm_compute; discriminate.
Qed.
Example C81_case_authorization : (exists c, step1 = Done (after step1) (OCode c)) /\ enough_random (case_env 1001 rand2) (after step1) 1.
Proof. split; [eexists; vm_compute; reflexivity|]. split; vm_compute; discriminate. Qed.
