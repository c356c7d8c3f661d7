(** server.go *)
From Verif.Model Require Export Hs256 Bearer Endpoints.

(** server.go:11-18 [ServerConfig]; durations in nanoseconds. *)
Record server_config := {
  cfg_secret : string;
  cfg_key_length : Z;
  cfg_allowed_scope : scope;
  cfg_access_lifespan : Z;
  cfg_refresh_lifespan : Z;
  cfg_code_lifespan : Z
}.

(** time.Second in nanoseconds. *)
Definition second : Z := 1000000000.

(** server.go:21-30 [DefaultServerConfig]. *)
Definition default_server_config (secret : string) (allowed : scope) : server_config :=
  {| cfg_secret := secret; cfg_key_length := 16; cfg_allowed_scope := allowed;
     cfg_access_lifespan := 3600 * second;
     cfg_refresh_lifespan := 7 * 24 * 3600 * second;
     cfg_code_lifespan := 600 * second |}.

(** server.go:33-35 [MustGenerate], drawing from the random source [src]. *)
Definition cfg_must_generate (c : server_config) (src : string) : option (hs_token * string) :=
  must_generate (cfg_secret c) (cfg_key_length c) src.

(** server.go:38-42 [ServerEntity]. *)
Record entity := { en_secret : string; en_redirect_uri : string; en_confidential : bool }.

(** server.go:45-53 [ServerCredential]. Instants are nanoseconds since the Unix
    epoch (an unbounded integer; monotonic clock readings and the range of
    time.Time are not modelled). *)
Record credential := {
  cd_client_id : string;
  cd_username : string;
  cd_expires_at : Z;
  cd_scope : scope;
  cd_redirect_uri : string;
  cd_code : string;
  cd_used : bool
}.

(** server.go:57-65 [Server] without the mutex (see Concurrent.v). *)
Record server := {
  sv_config : server_config;
  sv_clients : gmap string entity;
  sv_users : gmap string entity;
  sv_access : gmap string credential;
  sv_refresh : gmap string credential;
  sv_codes : gmap string credential
}.

(** server.go:68-77 [NewServer]. *)
Definition new_server (c : server_config) : server :=
  {| sv_config := c; sv_clients := ∅; sv_users := ∅; sv_access := ∅;
     sv_refresh := ∅; sv_codes := ∅ |}.

(** server.go:61, the server with another map [AccessTokens]. *)
Definition set_access (s : server) m : server :=
  {| sv_config := sv_config s; sv_clients := sv_clients s; sv_users := sv_users s;
     sv_access := m; sv_refresh := sv_refresh s; sv_codes := sv_codes s |}.
(** server.go:62, the server with another map [RefreshTokens]. *)
Definition set_refresh (s : server) m : server :=
  {| sv_config := sv_config s; sv_clients := sv_clients s; sv_users := sv_users s;
     sv_access := sv_access s; sv_refresh := m; sv_codes := sv_codes s |}.
(** server.go:63, the server with another map [AuthorizationCodes]. *)
Definition set_codes (s : server) m : server :=
  {| sv_config := sv_config s; sv_clients := sv_clients s; sv_users := sv_users s;
     sv_access := sv_access s; sv_refresh := sv_refresh s; sv_codes := m |}.

(** What a request draws from its environment: the results of the calls of
    time.Now and the bytes the random source delivers before it fails. *)
Record env := {
  ev_now_check : Z;     (* server.go:108, 374, 417 *)
  ev_now_access : Z;    (* server.go:611 *)
  ev_now_refresh : Z;   (* server.go:621 *)
  ev_now_code : Z;      (* server.go:248 *)
  ev_rand : string
}.

(** The one response a handler writes, before it is written. *)
Inductive outcome :=
| OError (e : error)
| OToken (r : token_response)
| OCode (r : code_response)
| OIntro (r : introspection_response)
| ORevoked          (* bare 200, server.go:508 *)
| ONotice           (* the text of server.go:182-183 *)
| ONotFound.        (* server.go:149 *)

(** A handler ends with a state and the response to write, or panics (always
    before anything is written). *)
Inductive result := Done (s : server) (o : outcome) | Panic (s : server).

(** The state a handler leaves behind. *)
Definition res_server (r : result) : server :=
  match r with Done s _ => s | Panic s => s end.

(** server.go:586-628 [issueTokens]; [None] is the panic of MustGenerate, which
    comes before any map is changed. *)
Definition issue_tokens (ev : env) (s : server) (issue_refresh : bool) (sc : scope)
  (client_id username code : string) : option (server * token_response) :=
  let c := sv_config s in
  match cfg_must_generate c (ev_rand ev) with
  | None => None
  | Some (access, src1) =>
      let refresh :=
        if issue_refresh then
          match cfg_must_generate c src1 with
          | None => None
          | Some (t, _) => Some (Some t)
          end
        else Some None in
      match refresh with
      | None => None
      | Some rt =>
          let r0 := new_bearer_token_response (token_string access)
                      (Z.quot (cfg_access_lifespan c) second) in
          let r := {| tr_token_type := tr_token_type r0; tr_access_token := tr_access_token r0;
                      tr_expires_in := tr_expires_in r0;
                      tr_refresh_token := match rt with Some t => token_string t | None => "" end;
                      tr_scope := sc; tr_state := tr_state r0;
                      tr_redirect_uri := tr_redirect_uri r0 |} in
          let cred now life :=
            {| cd_client_id := client_id; cd_username := username;
               cd_expires_at := (now + life)%Z; cd_scope := sc; cd_redirect_uri := "";
               cd_code := code; cd_used := false |} in
          let s1 := set_access s (<[signature_string access :=
                      cred (ev_now_access ev) (cfg_access_lifespan c)]> (sv_access s)) in
          let s2 := match rt with
                    | Some t => set_refresh s1 (<[signature_string t :=
                        cred (ev_now_refresh ev) (cfg_refresh_lifespan c)]> (sv_refresh s1))
                    | None => s1
                    end in
          Some (s2, r)
      end
  end.

(** server.go:630-644 [revokeToken]. *)
Definition revoke_token (client_id : string) (m : gmap string credential) (signature : string)
  : gmap string credential :=
  match m !! signature with
  | None => m
  | Some t => if negb (seqb (cd_client_id t) client_id) then m else delete signature m
  end.

(** [!found || owner.Secret != password]. *)
Definition owner_ok (s : server) (username password : string) : bool :=
  match sv_users s !! username with
  | None => false
  | Some owner => seqb (en_secret owner) password
  end.

(** server.go:200-222 [handleImplicitGrant]. *)
Definition handle_implicit (ev : env) (s : server) (username password : string)
  (rq : authorization_request) : result :=
  if negb (scope_includes (cfg_allowed_scope (sv_config s)) (aq_scope rq)) then
    Done s (OError (set_error_redirect (InvalidScope "") (aq_redirect_uri rq) (aq_state rq) true))
  else if negb (owner_ok s username password) then
    Done s (OError (set_error_redirect (AccessDenied "") (aq_redirect_uri rq) (aq_state rq) true))
  else match issue_tokens ev s false (aq_scope rq) (aq_client_id rq) username "" with
       | None => Panic s
       | Some (s', r) =>
           Done s' (OToken (set_token_redirect r (aq_redirect_uri rq) (aq_state rq)))
       end.

(** server.go:224-255 [handleAuthorizationCodeGrantAuthorization]. *)
Definition handle_code_authorization (ev : env) (s : server) (username password : string)
  (rq : authorization_request) : result :=
  if negb (scope_includes (cfg_allowed_scope (sv_config s)) (aq_scope rq)) then
    Done s (OError (set_error_redirect (InvalidScope "") (aq_redirect_uri rq) (aq_state rq) false))
  else if negb (owner_ok s username password) then
    Done s (OError (set_error_redirect (AccessDenied "") (aq_redirect_uri rq) (aq_state rq) false))
  else match cfg_must_generate (sv_config s) (ev_rand ev) with
       | None => Panic s
       | Some (code, _) =>
           let r := new_code_response (token_string code) (aq_redirect_uri rq) (aq_state rq) in
           let cred :=
             {| cd_client_id := aq_client_id rq; cd_username := username;
                cd_expires_at := (ev_now_code ev + cfg_code_lifespan (sv_config s))%Z;
                cd_scope := aq_scope rq; cd_redirect_uri := aq_redirect_uri rq;
                cd_code := ""; cd_used := false |} in
           Done (set_codes s (<[signature_string code := cred]> (sv_codes s))) (OCode r)
       end.

(** [r.PostForm] at server.go:188-189, as set by ParseForm. *)
Definition post_form (r : request) : values :=
  match parse_form r with Some f => f_post f | None => ∅ end.

(** server.go:153-198 [authorizationEndpoint]. *)
Definition authorization_endpoint (ev : env) (s : server) (r : request) : result :=
  match parse_authorization_request r with
  | inr e => Done s (OError e)
  | inl req =>
      if negb (known_response_type (aq_response_type req)) then
        Done s (OError (InvalidRequest "unknown response type"))
      else match sv_clients s !! aq_client_id req with
      | None => Done s (OError (InvalidClient "unknown client"))
      | Some client =>
          if negb (seqb (en_redirect_uri client) (aq_redirect_uri req)) then
            Done s (OError (InvalidRequest "invalid redirect URI"))
          else if seqb (rq_method r) "GET" then Done s ONotice
          else
            let username := vget (post_form r) "username" in
            let password := vget (post_form r) "password" in
            if seqb (aq_response_type req) TokenResponseType
            then handle_implicit ev s username password req
            else handle_code_authorization ev s username password req
      end
  end.

(** server.go:297-316 [handleResourceOwnerPasswordCredentialsGrant]. *)
Definition handle_password (ev : env) (s : server) (rq : token_request) : result :=
  if negb (owner_ok s (tq_username rq) (tq_password rq)) then Done s (OError (AccessDenied ""))
  else if negb (scope_includes (cfg_allowed_scope (sv_config s)) (tq_scope rq)) then
    Done s (OError (InvalidScope ""))
  else match issue_tokens ev s true (tq_scope rq) (tq_client_id rq) (tq_username rq) "" with
       | None => Panic s
       | Some (s', r) => Done s' (OToken r)
       end.

(** server.go:318-336 [handleClientCredentialsGrant]; a missing client would be
    a nil dereference. *)
Definition handle_client_credentials (ev : env) (s : server) (rq : token_request) : result :=
  match sv_clients s !! tq_client_id rq with
  | None => Panic s
  | Some client =>
      if negb (en_confidential client) then Done s (OError (InvalidClient "unknown client"))
      else if negb (scope_includes (cfg_allowed_scope (sv_config s)) (tq_scope rq)) then
        Done s (OError (InvalidScope ""))
      else match issue_tokens ev s true (tq_scope rq) (tq_client_id rq) "" "" with
           | None => Panic s
           | Some (s', r) => Done s' (OToken r)
           end
  end.

(** server.go:356-360 and 363-367: delete the entries issued for a code, the
    keys being visited in the given order. Deleting during range is defined in
    Go: a deleted entry is not visited again, the others once. *)
Definition revoke_code_order (code : string) (order : list string)
  (m : gmap string credential) : gmap string credential :=
  fold_left (fun acc key =>
    match acc !! key with
    | Some token => if seqb (cd_code token) code then delete key acc else acc
    | None => acc
    end) order m.
(** server.go:356-360 and 363-367; the order of the map does not matter. *)
Definition revoke_code (code : string) (m : gmap string credential) : gmap string credential :=
  revoke_code_order code (map fst (map_to_list m)) m.

(** server.go:395, the credential with [Used] set. *)
Definition mark_used (c : credential) : credential :=
  {| cd_client_id := cd_client_id c; cd_username := cd_username c;
     cd_expires_at := cd_expires_at c; cd_scope := cd_scope c;
     cd_redirect_uri := cd_redirect_uri c; cd_code := cd_code c; cd_used := true |}.

(** server.go:338-399 [handleAuthorizationCodeGrant]. *)
Definition handle_code (ev : env) (s : server) (rq : token_request) : result :=
  match parse_token (cfg_secret (sv_config s)) (tq_code rq) with
  | inr msg => Done s (OError (InvalidRequest msg))
  | inl code =>
      let sg := signature_string code in
      match sv_codes s !! sg with
      | None => Done s (OError (InvalidGrant "unknown authorization code"))
      | Some stored =>
          if cd_used stored then
            let s1 := set_access s (revoke_code sg (sv_access s)) in
            let s2 := set_refresh s1 (revoke_code sg (sv_refresh s1)) in
            Done s2 (OError (InvalidGrant "unknown authorization code"))
          else if (cd_expires_at stored <? ev_now_check ev)%Z then
            Done s (OError (InvalidGrant "expired authorization code"))
          else if negb (seqb (cd_client_id stored) (tq_client_id rq)) then
            Done s (OError (InvalidGrant "invalid authorization code ownership"))
          else if negb (seqb (cd_redirect_uri stored) (tq_redirect_uri rq)) then
            Done s (OError (InvalidGrant "changed redirect uri"))
          else match issue_tokens ev s true (cd_scope stored) (tq_client_id rq)
                       (cd_username stored) sg with
               | None => Panic s
               | Some (s1, r) =>
                   Done (set_codes s1 (<[sg := mark_used stored]> (sv_codes s1))) (OToken r)
               end
      end
  end.

(** server.go:401-447 [handleRefreshTokenGrant]. *)
Definition handle_refresh (ev : env) (s : server) (rq : token_request) : result :=
  match parse_token (cfg_secret (sv_config s)) (tq_refresh_token rq) with
  | inr msg => Done s (OError (InvalidRequest msg))
  | inl rt =>
      let sg := signature_string rt in
      match sv_refresh s !! sg with
      | None => Done s (OError (InvalidGrant "unknown refresh token"))
      | Some stored =>
          if (cd_expires_at stored <? ev_now_check ev)%Z then
            Done s (OError (InvalidGrant "expired refresh token"))
          else if negb (seqb (cd_client_id stored) (tq_client_id rq)) then
            Done s (OError (InvalidGrant "invalid refresh token ownership"))
          else
            let sc := if scope_empty (tq_scope rq) then cd_scope stored else tq_scope rq in
            if negb (scope_includes (cd_scope stored) sc) then
              Done s (OError (InvalidScope "scope exceeds the originally granted scope"))
            else match issue_tokens ev s true sc (tq_client_id rq) (cd_username stored) "" with
                 | None => Panic s
                 | Some (s1, r) =>
                     Done (set_refresh s1 (delete sg (sv_refresh s1))) (OToken r)
                 end
      end
  end.

(** [client.Confidential && client.Secret != secret], negated. *)
Definition client_ok (c : entity) (secret : string) : bool :=
  negb (en_confidential c && negb (seqb (en_secret c) secret)).

(** server.go:257-295 [tokenEndpoint]. *)
Definition token_endpoint (ev : env) (s : server) (r : request) : result :=
  match parse_token_request r with
  | inr e => Done s (OError e)
  | inl req =>
      if negb (known_grant_type (tq_grant_type req)) then
        Done s (OError (InvalidRequest "unknown grant type"))
      else match sv_clients s !! tq_client_id req with
      | None => Done s (OError (InvalidClient "unknown client"))
      | Some client =>
          if negb (client_ok client (tq_client_secret req)) then
            Done s (OError (InvalidClient "unknown client"))
          else if seqb (tq_grant_type req) PasswordGrantType then handle_password ev s req
          else if seqb (tq_grant_type req) ClientCredentialsGrantType
               then handle_client_credentials ev s req
          else if seqb (tq_grant_type req) AuthorizationCodeGrantType then handle_code ev s req
          else handle_refresh ev s req
      end
  end.

(** The common start of the revocation (server.go:450-481) and introspection
    (server.go:512-543) endpoints: the same statements. *)
Definition lookup_prologue (s : server) (r : request) : (lookup_request * hs_token) + error :=
  match parse_lookup_request r with
  | inr e => inr e
  | inl req =>
      if negb (seqb (lq_token_type_hint req) "")
         && negb (known_token_type (lq_token_type_hint req)) then
        inr (UnsupportedTokenType "")
      else match sv_clients s !! lq_client_id req with
      | None => inr (InvalidClient "unknown client")
      | Some client =>
          if negb (client_ok client (lq_client_secret req)) then
            inr (InvalidClient "unknown client")
          else match parse_token (cfg_secret (sv_config s)) (lq_token req) with
               | inr msg => inr (InvalidRequest msg)
               | inl t => inl (req, t)
               end
      end
  end.

(** server.go:449-509 [revocationEndpoint]. *)
Definition revocation_endpoint (s : server) (r : request) : result :=
  match lookup_prologue s r with
  | inr e => Done s (OError e)
  | inl (req, token) =>
      let sg := signature_string token in
      let after_access :=
        match sv_access s !! sg with
        | None => inl s
        | Some a =>
            if negb (seqb (cd_client_id a) (lq_client_id req))
            then inr (InvalidClient "wrong client")
            else inl (set_access s (revoke_token (lq_client_id req) (sv_access s) sg))
        end in
      match after_access with
      | inr e => Done s (OError e)
      | inl s1 =>
          match sv_refresh s1 !! sg with
          | None => Done s1 ORevoked
          | Some f =>
              if negb (seqb (cd_client_id f) (lq_client_id req))
              then Done s1 (OError (InvalidClient "wrong client"))
              else Done (set_refresh s1 (revoke_token (lq_client_id req) (sv_refresh s1) sg))
                        ORevoked
          end
      end
  end.

(** server.go:557-562 and 574-579. *)
Definition describe (c : credential) (kind : string) : introspection_response :=
  {| ir_active := true; ir_scope := cd_scope c; ir_client_id := cd_client_id c;
     ir_username := cd_username c; ir_token_type := kind;
     ir_expires_at := (cd_expires_at c / second)%Z;
     ir_issued_at := 0; ir_not_before := 0; ir_subject := ""; ir_audience := "";
     ir_issuer := ""; ir_identifier := ""; ir_extra := None |}.

(** server.go:511-584 [introspectionEndpoint]. *)
Definition introspection_endpoint (s : server) (r : request) : result :=
  match lookup_prologue s r with
  | inr e => Done s (OError e)
  | inl (req, token) =>
      let sg := signature_string token in
      let res0 := new_introspection_response false None "" "" "" in
      let after_access :=
        match sv_access s !! sg with
        | None => inl res0
        | Some a =>
            if negb (seqb (cd_client_id a) (lq_client_id req))
            then inr (InvalidClient "wrong client")
            else inl (describe a AccessToken)
        end in
      match after_access with
      | inr e => Done s (OError e)
      | inl res1 =>
          match sv_refresh s !! sg with
          | None => Done s (OIntro res1)
          | Some f =>
              if negb (seqb (cd_client_id f) (lq_client_id req))
              then Done s (OError (InvalidClient "wrong client"))
              else Done s (OIntro (describe f RefreshToken))
          end
      end
  end.

(** server.go:129-136: the last path segment. *)
Definition last_segment (path : string) : string :=
  match last_cut "/" path with Some (_, x) => x | None => path end.

(** server.go:124-151 [ServeHTTP] up to the writing of the response. *)
Definition handle (ev : env) (s : server) (r : request) : result :=
  let path := last_segment (rq_path r) in
  if seqb path "authorize" then authorization_endpoint ev s r
  else if seqb path "token" then token_endpoint ev s r
  else if seqb path "introspect" then introspection_endpoint s r
  else if seqb path "revoke" then revocation_endpoint s r
  else Done s ONotFound.

(** server.go:182-183. *)
Definition notice : string :=
  "This authentication server does not provide an authorization form." +:+ str1 "010"
  +:+ "Please submit the resource owners username and password in a POST request.".

(** Writing the response; errors of the writing functions are dropped by the
    handlers ([_ = WriteError(...)]). [None] is a panic. *)
Definition write_outcome (w : rw) (o : outcome) : option rw :=
  match o with
  | OError e => option_map fst (write_error w (GErr e))
  | OToken r => option_map fst (write_token_response w r)
  | OCode r => option_map fst (write_code_response w r)
  | OIntro r => option_map fst (write_introspection_response w r)
  | ORevoked => write_header w 200
  | ONotice => option_map fst (write_bytes w notice)
  | ONotFound => not_found w
  end.

(** server.go:124-151 [ServeHTTP]: the server afterwards and the writer, or
    [None] if the call panicked. *)
Definition serve_http (ev : env) (s : server) (r : request) (w : rw) : server * option rw :=
  match handle ev s r with
  | Panic s' => (s', None)
  | Done s' o => (s', write_outcome w o)
  end.

(** How [Authorize] decides: true, false with the error written, or a panic. *)
Inductive auth_result := Granted | Denied (e : error) | AuthPanic.
(** server.go:81-120 [Authorize]: the decision. *)
Definition authorize_decision (now : Z) (s : server) (r : request) (required : scope)
  : auth_result :=
  match parse_bearer_token r with
  | BPanic => AuthPanic
  | BErr e => Denied e
  | BToken tk =>
      match parse_token (cfg_secret (sv_config s)) tk with
      | inr _ => Denied (InvalidToken "malformed token")
      | inl token =>
          match sv_access s !! signature_string token with
          | None => Denied (InvalidToken "unknown token")
          | Some a =>
              if (cd_expires_at a <? now)%Z then Denied (InvalidToken "expired token")
              else if negb (scope_includes (cd_scope a) required)
                   then Denied (InsufficientScope required)
              else Granted
          end
      end
  end.
(** server.go:81-120 [Authorize]: return value and writer; [None] is a panic. *)
Definition authorize (now : Z) (s : server) (r : request) (required : scope) (w : rw)
  : option (bool * rw) :=
  match authorize_decision now s r required with
  | Granted => Some (true, w)
  | AuthPanic => None
  | Denied e => match write_bearer_error w (GErr e) with
                | Some (w', _) => Some (false, w')
                | None => None
                end
  end.
