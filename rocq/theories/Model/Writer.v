(** The handlers with their statements in the order of the source, given an
    http.ResponseWriter of any behaviour. The functions in Server.v and the
    files before it are about the response writer of net/http on a connection
    that takes everything. *)
From Verif.Model Require Export Server.

(** The calls /repo makes on a response writer: w.Header().Set, w.Header().Add,
    w.WriteHeader and w.Write (net/http server.go [ResponseWriter]). *)
Inductive wcall :=
| SetHeader (k v : string)
| AddHeader (k v : string)
| WriteHeader (code : Z)
| WriteBody (b : string).

(** How such a call ends: as it should; with an error, which only Write can
    return; or with a panic. *)
Inductive wend := Fine | Failed | Panics.

(** A response writer with states in [W]: for every state and call the state
    afterwards and the end of the call. It is any implementation of
    http.ResponseWriter, for example the one of a middleware, or a connection
    that breaks. Simplification: it does not call the server it answers for. *)
Definition writer (W : Type) : Type := W -> wcall -> W * wend.

(** The writer of net/http with a connection that takes everything (Http.v). *)
Definition net_http : writer rw := fun w c =>
  match c with
  | SetHeader k v => (header_set w k v, Fine)
  | AddHeader k v => (header_add w k v, Fine)
  | WriteHeader code =>
      match write_header w code with Some w' => (w', Fine) | None => (w, Panics) end
  | WriteBody b =>
      match write_bytes w b with
      | Some (w', true) => (w', Fine)
      | Some (w', false) => (w', Failed)
      | None => (w, Panics)
      end
  end.

(** The same with a connection that takes [n] more bytes of the body and then
    breaks: Write returns an error as soon as something is not taken. *)
Definition breaking : writer (rw * nat) := fun '(w, n) c =>
  match c with
  | WriteBody b =>
      match write_bytes w (substring 0 n b) with
      | Some (w', ok) =>
          ((w', n - String.length b), if ok && (String.length b <=? n) then Fine else Failed)
      | None => ((w, n), Panics)
      end
  | _ => let '(w', e) := net_http w c in ((w', n), e)
  end.

(** ** Functions that write a response *)

(** A computation on a writer; [None] is a panic. *)
Definition wact (W A : Type) : Type := W -> W * option A.
(** A computation that does nothing. *)
Definition wret {W A} (a : A) : wact W A := fun w => (w, Some a).
(** One after the other. *)
Definition wbind {W A B} (m : wact W A) (f : A -> wact W B) : wact W B := fun w =>
  match m w with (w', Some a) => f a w' | (w', None) => (w', None) end.
(** One call; the flag tells whether err = nil. *)
Definition wdo {W} (wr : writer W) (c : wcall) : wact W bool := fun w =>
  match wr w c with
  | (w', Fine) => (w', Some true)
  | (w', Failed) => (w', Some false)
  | (w', Panics) => (w', None)
  end.
(** A sequence of statements. *)
Notation "m >>> n" := (wbind m (fun _ => n)) (at level 60, right associativity).

(** oauth2.go:73-86 [Write]; json.NewEncoder(w).Encode calls Write once with the
    whole document (encoding/json stream.go). *)
Definition write_on {W} (wr : writer W) (obj : json) (status : Z) : wact W bool :=
  wdo wr (SetHeader "Content-Type" "application/json;charset=UTF-8") >>>
  wdo wr (SetHeader "Cache-Control" "no-store") >>>
  wdo wr (SetHeader "Pragma" "no-cache") >>>
  wdo wr (WriteHeader status) >>>
  wdo wr (WriteBody (json_encode obj)).

(** oauth2.go:91-140 [WriteRedirect]. *)
Definition write_redirect_on {W} (wr : writer W) (uri : string) (params : gmap string string)
  (use_fragment : bool) : wact W bool :=
  match redirect_location uri params use_fragment with
  | None => wret false
  | Some loc =>
      wdo wr (AddHeader "Location" loc) >>>
      wdo wr (SetHeader "Cache-Control" "no-store") >>>
      wdo wr (SetHeader "Pragma" "no-cache") >>>
      wdo wr (SetHeader "Referrer-Policy" "origin") >>>
      wdo wr (WriteHeader 303) >>>
      wdo wr (WriteBody "")
  end.

(** error.go:268-270, the header map iterated in the given order. *)
Fixpoint set_headers_on {W} (wr : writer W) (order : list (string * string)) : wact W bool :=
  match order with
  | [] => wret true
  | kv :: order => wdo wr (SetHeader (fst kv) (snd kv)) >>> set_headers_on wr order
  end.

(** error.go:260-278 [WriteError], the header map iterated in the given order. *)
Definition write_error_order_on {W} (wr : writer W) (e : error) (order : list (string * string))
  : wact W bool :=
  set_headers_on wr order >>>
  if negb (seqb (e_redirect_uri e) "") then
    write_redirect_on wr (e_redirect_uri e) (error_map e) (e_use_fragment e)
  else write_on wr (error_json e) (e_status e).
(** error.go:260-278 [WriteError]. *)
Definition write_error_on {W} (wr : writer W) (err : goerr) : wact W bool :=
  let e := match err with GErr e => e | GOther => ServerError "" end in
  write_error_order_on wr e (map_to_list (e_headers e)).

(** token.go:172-179 [WriteTokenResponse]. *)
Definition write_token_response_on {W} (wr : writer W) (r : token_response) : wact W bool :=
  if negb (seqb (tr_redirect_uri r) "")
  then write_redirect_on wr (tr_redirect_uri r) (token_map r) true
  else write_on wr (token_json r) 200.

(** code.go:44-46 [WriteCodeResponse]. *)
Definition write_code_response_on {W} (wr : writer W) (r : code_response) : wact W bool :=
  write_redirect_on wr (cr_redirect_uri r) (code_map r) false.

(** introspection.go:92-99 [WriteIntrospectionResponse]. *)
Definition write_introspection_response_on {W} (wr : writer W) (r : introspection_response)
  : wact W bool :=
  if ir_active r && negb (known_token_type (ir_token_type r)) then wret false
  else write_on wr (introspection_json r) 200.

(** bearer.go:59-93 [WriteBearerError]. *)
Definition write_bearer_error_on {W} (wr : writer W) (err : goerr) : wact W bool :=
  let fallback := wdo wr (WriteHeader 500) >>> wdo wr (WriteBody "") in
  match err with
  | GErr e =>
      if (e_status e =? 500)%Z then fallback
      else
        let params := if seqb (error_params e) "" then default_challenge else error_params e in
        wdo wr (SetHeader "WWW-Authenticate" ("Bearer " +:+ params)) >>>
        wdo wr (WriteHeader (e_status e)) >>>
        wdo wr (WriteBody "")
  | GOther => fallback
  end.

(** net/http server.go [NotFound], called at server.go:149. *)
Definition not_found_on {W} (wr : writer W) : wact W bool :=
  wdo wr (SetHeader "Content-Type" "text/plain; charset=utf-8") >>>
  wdo wr (SetHeader "X-Content-Type-Options" "nosniff") >>>
  wdo wr (WriteHeader 404) >>>
  wdo wr (WriteBody ("404 page not found" +:+ str1 "010")).

(** ** Handlers *)

(** A computation on the server and the writer; [None] is a panic, which leaves
    both as they are at that moment. *)
Definition hact (W A : Type) : Type := server -> W -> server * W * option A.
(** One after the other. *)
Definition hbind {W A B} (m : hact W A) (f : A -> hact W B) : hact W B := fun s w =>
  match m s w with (s', w', Some a) => f a s' w' | (s', w', None) => (s', w', None) end.
(** A panic. *)
Definition hpanic {W A} : hact W A := fun s w => (s, w, None).
(** Reading the server. *)
Definition hget {W} : hact W server := fun s w => (s, w, Some s).
(** Changing the server. *)
Definition hput {W} (s' : server) : hact W unit := fun s w => (s', w, Some tt).
(** [_ = WriteError(w, ...)] and the like: the returned error is dropped. *)
Definition answer_with {W} (m : wact W bool) : hact W unit := fun s w =>
  match m w with (w', Some _) => (s, w', Some tt) | (w', None) => (s, w', None) end.
(** Reading the server as [s] for [f]; changing it to [s'], then [m]. *)
Notation "'reading' s 'in' f" := (hbind hget (fun s => f)) (at level 200, s name, f at level 200).
Notation "'assign' s' ';' m" := (hbind (hput s') (fun _ => m)) (at level 200, m at level 200).

(** [_ = WriteError(w, e); return]. *)
Definition reject {W} (wr : writer W) (e : error) : hact W unit :=
  answer_with (write_error_on wr (GErr e)).

(** server.go:586-628 [issueTokens], then [k]. *)
Definition issue_on {W} (ev : env) (issue_refresh : bool) (sc : scope)
  (client_id username code : string) (k : token_response -> hact W unit) : hact W unit :=
  reading s in
  match issue_tokens ev s issue_refresh sc client_id username code with
  | None => hpanic
  | Some (s', r) => assign s'; k r
  end.

(** server.go:200-222 [handleImplicitGrant]. *)
Definition implicit_on {W} (wr : writer W) (ev : env) (username password : string)
  (rq : authorization_request) : hact W unit :=
  reading s in
  if negb (scope_includes (cfg_allowed_scope (sv_config s)) (aq_scope rq)) then
    reject wr (set_error_redirect (InvalidScope "") (aq_redirect_uri rq) (aq_state rq) true)
  else if negb (owner_ok s username password) then
    reject wr (set_error_redirect (AccessDenied "") (aq_redirect_uri rq) (aq_state rq) true)
  else issue_on ev false (aq_scope rq) (aq_client_id rq) username "" (fun r =>
    answer_with (write_token_response_on wr
      (set_token_redirect r (aq_redirect_uri rq) (aq_state rq)))).

(** server.go:224-255 [handleAuthorizationCodeGrantAuthorization]. *)
Definition code_authorization_on {W} (wr : writer W) (ev : env) (username password : string)
  (rq : authorization_request) : hact W unit :=
  reading s in
  if negb (scope_includes (cfg_allowed_scope (sv_config s)) (aq_scope rq)) then
    reject wr (set_error_redirect (InvalidScope "") (aq_redirect_uri rq) (aq_state rq) false)
  else if negb (owner_ok s username password) then
    reject wr (set_error_redirect (AccessDenied "") (aq_redirect_uri rq) (aq_state rq) false)
  else match cfg_must_generate (sv_config s) (ev_rand ev) with
       | None => hpanic
       | Some (code, _) =>
           let r := new_code_response (token_string code) (aq_redirect_uri rq) (aq_state rq) in
           assign (set_codes s (<[signature_string code :=
             {| cd_client_id := aq_client_id rq; cd_username := username;
                cd_expires_at := (ev_now_code ev + cfg_code_lifespan (sv_config s))%Z;
                cd_scope := aq_scope rq; cd_redirect_uri := aq_redirect_uri rq;
                cd_code := ""; cd_used := false |}]> (sv_codes s)));
           answer_with (write_code_response_on wr r)
       end.

(** server.go:153-198 [authorizationEndpoint]. *)
Definition authorization_on {W} (wr : writer W) (ev : env) (r : request) : hact W unit :=
  match parse_authorization_request r with
  | inr e => reject wr e
  | inl req =>
      if negb (known_response_type (aq_response_type req)) then
        reject wr (InvalidRequest "unknown response type")
      else reading s in
      match sv_clients s !! aq_client_id req with
      | None => reject wr (InvalidClient "unknown client")
      | Some client =>
          if negb (seqb (en_redirect_uri client) (aq_redirect_uri req)) then
            reject wr (InvalidRequest "invalid redirect URI")
          else if seqb (rq_method r) "GET" then answer_with (wdo wr (WriteBody notice))
          else
            let username := vget (post_form r) "username" in
            let password := vget (post_form r) "password" in
            if seqb (aq_response_type req) TokenResponseType
            then implicit_on wr ev username password req
            else code_authorization_on wr ev username password req
      end
  end.

(** server.go:297-316 [handleResourceOwnerPasswordCredentialsGrant]. *)
Definition password_on {W} (wr : writer W) (ev : env) (rq : token_request) : hact W unit :=
  reading s in
  if negb (owner_ok s (tq_username rq) (tq_password rq)) then reject wr (AccessDenied "")
  else if negb (scope_includes (cfg_allowed_scope (sv_config s)) (tq_scope rq)) then
    reject wr (InvalidScope "")
  else issue_on ev true (tq_scope rq) (tq_client_id rq) (tq_username rq) "" (fun r =>
    answer_with (write_token_response_on wr r)).

(** server.go:318-336 [handleClientCredentialsGrant]. *)
Definition client_credentials_on {W} (wr : writer W) (ev : env) (rq : token_request) : hact W unit :=
  reading s in
  match sv_clients s !! tq_client_id rq with
  | None => hpanic
  | Some client =>
      if negb (en_confidential client) then reject wr (InvalidClient "unknown client")
      else if negb (scope_includes (cfg_allowed_scope (sv_config s)) (tq_scope rq)) then
        reject wr (InvalidScope "")
      else issue_on ev true (tq_scope rq) (tq_client_id rq) "" "" (fun r =>
        answer_with (write_token_response_on wr r))
  end.

(** server.go:338-399 [handleAuthorizationCodeGrant]. *)
Definition code_on {W} (wr : writer W) (ev : env) (rq : token_request) : hact W unit :=
  reading s in
  match parse_token (cfg_secret (sv_config s)) (tq_code rq) with
  | inr msg => reject wr (InvalidRequest msg)
  | inl code =>
      let sg := signature_string code in
      match sv_codes s !! sg with
      | None => reject wr (InvalidGrant "unknown authorization code")
      | Some stored =>
          if cd_used stored then
            assign (set_access s (revoke_code sg (sv_access s)));
            reading s in
            assign (set_refresh s (revoke_code sg (sv_refresh s)));
            reject wr (InvalidGrant "unknown authorization code")
          else if (cd_expires_at stored <? ev_now_check ev)%Z then
            reject wr (InvalidGrant "expired authorization code")
          else if negb (seqb (cd_client_id stored) (tq_client_id rq)) then
            reject wr (InvalidGrant "invalid authorization code ownership")
          else if negb (seqb (cd_redirect_uri stored) (tq_redirect_uri rq)) then
            reject wr (InvalidGrant "changed redirect uri")
          else issue_on ev true (cd_scope stored) (tq_client_id rq) (cd_username stored) sg (fun r =>
            reading s in
            assign (set_codes s (<[sg := mark_used stored]> (sv_codes s)));
            answer_with (write_token_response_on wr r))
      end
  end.

(** server.go:401-447 [handleRefreshTokenGrant]. *)
Definition refresh_on {W} (wr : writer W) (ev : env) (rq : token_request) : hact W unit :=
  reading s in
  match parse_token (cfg_secret (sv_config s)) (tq_refresh_token rq) with
  | inr msg => reject wr (InvalidRequest msg)
  | inl rt =>
      let sg := signature_string rt in
      match sv_refresh s !! sg with
      | None => reject wr (InvalidGrant "unknown refresh token")
      | Some stored =>
          if (cd_expires_at stored <? ev_now_check ev)%Z then
            reject wr (InvalidGrant "expired refresh token")
          else if negb (seqb (cd_client_id stored) (tq_client_id rq)) then
            reject wr (InvalidGrant "invalid refresh token ownership")
          else
            let sc := if scope_empty (tq_scope rq) then cd_scope stored else tq_scope rq in
            if negb (scope_includes (cd_scope stored) sc) then
              reject wr (InvalidScope "scope exceeds the originally granted scope")
            else issue_on ev true sc (tq_client_id rq) (cd_username stored) "" (fun r =>
              reading s in
              assign (set_refresh s (delete sg (sv_refresh s)));
              answer_with (write_token_response_on wr r))
      end
  end.

(** server.go:257-295 [tokenEndpoint]. *)
Definition token_on {W} (wr : writer W) (ev : env) (r : request) : hact W unit :=
  match parse_token_request r with
  | inr e => reject wr e
  | inl req =>
      if negb (known_grant_type (tq_grant_type req)) then
        reject wr (InvalidRequest "unknown grant type")
      else reading s in
      match sv_clients s !! tq_client_id req with
      | None => reject wr (InvalidClient "unknown client")
      | Some client =>
          if negb (client_ok client (tq_client_secret req)) then
            reject wr (InvalidClient "unknown client")
          else if seqb (tq_grant_type req) PasswordGrantType then password_on wr ev req
          else if seqb (tq_grant_type req) ClientCredentialsGrantType
               then client_credentials_on wr ev req
          else if seqb (tq_grant_type req) AuthorizationCodeGrantType then code_on wr ev req
          else refresh_on wr ev req
      end
  end.

(** server.go:450-481 and 512-543, then [k]. *)
Definition lookup_on {W} (wr : writer W) (r : request)
  (k : lookup_request -> hs_token -> hact W unit) : hact W unit :=
  match parse_lookup_request r with
  | inr e => reject wr e
  | inl req =>
      if negb (seqb (lq_token_type_hint req) "")
         && negb (known_token_type (lq_token_type_hint req)) then
        reject wr (UnsupportedTokenType "")
      else reading s in
      match sv_clients s !! lq_client_id req with
      | None => reject wr (InvalidClient "unknown client")
      | Some client =>
          if negb (client_ok client (lq_client_secret req)) then
            reject wr (InvalidClient "unknown client")
          else match parse_token (cfg_secret (sv_config s)) (lq_token req) with
               | inr msg => reject wr (InvalidRequest msg)
               | inl t => k req t
               end
      end
  end.

(** server.go:449-509 [revocationEndpoint]. *)
Definition revocation_on {W} (wr : writer W) (r : request) : hact W unit :=
  lookup_on wr r (fun req token =>
    let sg := signature_string token in
    let rest :=
      reading s in
      match sv_refresh s !! sg with
      | None => answer_with (wdo wr (WriteHeader 200))
      | Some f =>
          if negb (seqb (cd_client_id f) (lq_client_id req))
          then reject wr (InvalidClient "wrong client")
          else assign (set_refresh s (revoke_token (lq_client_id req) (sv_refresh s) sg));
               answer_with (wdo wr (WriteHeader 200))
      end in
    reading s in
    match sv_access s !! sg with
    | None => rest
    | Some a =>
        if negb (seqb (cd_client_id a) (lq_client_id req))
        then reject wr (InvalidClient "wrong client")
        else assign (set_access s (revoke_token (lq_client_id req) (sv_access s) sg)); rest
    end).

(** server.go:511-584 [introspectionEndpoint]. *)
Definition introspection_on {W} (wr : writer W) (r : request) : hact W unit :=
  lookup_on wr r (fun req token =>
    let sg := signature_string token in
    let rest (res : introspection_response) :=
      reading s in
      match sv_refresh s !! sg with
      | None => answer_with (write_introspection_response_on wr res)
      | Some f =>
          if negb (seqb (cd_client_id f) (lq_client_id req))
          then reject wr (InvalidClient "wrong client")
          else answer_with (write_introspection_response_on wr (describe f RefreshToken))
      end in
    reading s in
    match sv_access s !! sg with
    | None => rest (new_introspection_response false None "" "" "")
    | Some a =>
        if negb (seqb (cd_client_id a) (lq_client_id req))
        then reject wr (InvalidClient "wrong client")
        else rest (describe a AccessToken)
    end).

(** server.go:124-151 [ServeHTTP]. *)
Definition serve_on {W} (wr : writer W) (ev : env) (r : request) : hact W unit :=
  let path := last_segment (rq_path r) in
  if seqb path "authorize" then authorization_on wr ev r
  else if seqb path "token" then token_on wr ev r
  else if seqb path "introspect" then introspection_on wr r
  else if seqb path "revoke" then revocation_on wr r
  else answer_with (not_found_on wr).

(** [_ = WriteBearerError(w, e); return false]. *)
Definition deny {W} (wr : writer W) (e : error) : hact W bool :=
  hbind (answer_with (write_bearer_error_on wr (GErr e))) (fun _ s w => (s, w, Some false)).

(** server.go:81-120 [Authorize]. *)
Definition authorize_on {W} (wr : writer W) (now : Z) (r : request) (required : scope)
  : hact W bool :=
  match parse_bearer_token r with
  | BPanic => hpanic
  | BErr e => deny wr e
  | BToken tk =>
      reading s in
      match parse_token (cfg_secret (sv_config s)) tk with
      | inr _ => deny wr (InvalidToken "malformed token")
      | inl token =>
          match sv_access s !! signature_string token with
          | None => deny wr (InvalidToken "unknown token")
          | Some a =>
              if (cd_expires_at a <? now)%Z then deny wr (InvalidToken "expired token")
              else if negb (scope_includes (cd_scope a) required)
                   then deny wr (InsufficientScope required)
              else fun s w => (s, w, Some true)
          end
      end
  end.
