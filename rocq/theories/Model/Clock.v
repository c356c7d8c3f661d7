(** The server once more, as in Server.v and History.v, but with the time.Time of
    Go instead of one number for an instant. Proof/ClockProofs.v shows when the
    simpler model of Server.v is exact. *)
From Verif.Model Require Export Server History.
From Verif.Model Require Export Time.
#[local] Open Scope string_scope.

(** server.go:45-53 [ServerCredential]. The field [ExpiresAt] is a
    time.Time, see Time.v. *)
Record t_credential := {
  tcd_client_id : string;
  tcd_username : string;
  tcd_expires_at : time;
  tcd_scope : scope;
  tcd_redirect_uri : string;
  tcd_code : string;
  tcd_used : bool
}.

(** server.go:57-65 [Server] without the mutex. *)
Record t_server := {
  tsv_config : server_config;
  tsv_clients : gmap string entity;
  tsv_users : gmap string entity;
  tsv_access : gmap string t_credential;
  tsv_refresh : gmap string t_credential;
  tsv_codes : gmap string t_credential
}.

(** server.go:68-77 [NewServer]. *)
Definition t_new_server (c : server_config) : t_server :=
  {| tsv_config := c; tsv_clients := ∅; tsv_users := ∅; tsv_access := ∅;
     tsv_refresh := ∅; tsv_codes := ∅ |}.

(** server.go:61, the server with another map [AccessTokens]. *)
Definition t_set_access (s : t_server) m : t_server :=
  {| tsv_config := tsv_config s; tsv_clients := tsv_clients s; tsv_users := tsv_users s;
     tsv_access := m; tsv_refresh := tsv_refresh s; tsv_codes := tsv_codes s |}.
(** server.go:62, the server with another map [RefreshTokens]. *)
Definition t_set_refresh (s : t_server) m : t_server :=
  {| tsv_config := tsv_config s; tsv_clients := tsv_clients s; tsv_users := tsv_users s;
     tsv_access := tsv_access s; tsv_refresh := m; tsv_codes := tsv_codes s |}.
(** server.go:63, the server with another map [AuthorizationCodes]. *)
Definition t_set_codes (s : t_server) m : t_server :=
  {| tsv_config := tsv_config s; tsv_clients := tsv_clients s; tsv_users := tsv_users s;
     tsv_access := tsv_access s; tsv_refresh := tsv_refresh s; tsv_codes := m |}.

(** What a request draws from its environment: the two clocks at the calls
    of time.Now and the bytes the random source delivers before it fails. *)
Record t_env := {
  tev_now_check : clock;     (* server.go:108, 374, 417 *)
  tev_now_access : clock;    (* server.go:611 *)
  tev_now_refresh : clock;   (* server.go:621 *)
  tev_now_code : clock;      (* server.go:248 *)
  tev_rand : string
}.

(** A handler ends with a state and the response to write, or panics (always
    before anything is written). *)
Inductive t_result := TDone (s : t_server) (o : outcome) | TPanic (s : t_server).

(** The state a handler leaves behind. *)
Definition t_res_server (r : t_result) : t_server :=
  match r with TDone s _ => s | TPanic s => s end.

(** server.go:586-628 [issueTokens]; [None] is the panic of MustGenerate, which
    comes before any map is changed. *)
Definition t_issue_tokens (ev : t_env) (s : t_server) (issue_refresh : bool) (sc : scope)
  (client_id username code : string) : option (t_server * token_response) :=
  let c := tsv_config s in
  match cfg_must_generate c (tev_rand ev) with
  | None => None
  | Some (access, src1) =>
      let refresh :=
        if issue_refresh then
          match cfg_must_generate c src1 with
          | None => None
          | Some (t, _) => Some (Some t)
          end
        else Some None in
      match refresh with
      | None => None
      | Some rt =>
          let r0 := new_bearer_token_response (token_string access)
                      (Z.quot (cfg_access_lifespan c) second) in
          let r := {| tr_token_type := tr_token_type r0; tr_access_token := tr_access_token r0;
                      tr_expires_in := tr_expires_in r0;
                      tr_refresh_token := match rt with Some t => token_string t | None => "" end;
                      tr_scope := sc; tr_state := tr_state r0;
                      tr_redirect_uri := tr_redirect_uri r0 |} in
          let cred now life :=
            {| tcd_client_id := client_id; tcd_username := username;
               tcd_expires_at := time_add (now_at now) life; tcd_scope := sc; tcd_redirect_uri := "";
               tcd_code := code; tcd_used := false |} in
          let s1 := t_set_access s (<[signature_string access :=
                      cred (tev_now_access ev) (cfg_access_lifespan c)]> (tsv_access s)) in
          let s2 := match rt with
                    | Some t => t_set_refresh s1 (<[signature_string t :=
                        cred (tev_now_refresh ev) (cfg_refresh_lifespan c)]> (tsv_refresh s1))
                    | None => s1
                    end in
          Some (s2, r)
      end
  end.

(** server.go:630-644 [revokeToken]. *)
Definition t_revoke_token (client_id : string) (m : gmap string t_credential) (signature : string)
  : gmap string t_credential :=
  match m !! signature with
  | None => m
  | Some t => if negb (seqb (tcd_client_id t) client_id) then m else delete signature m
  end.

(** [!found || owner.Secret != password]. *)
Definition t_owner_ok (s : t_server) (username password : string) : bool :=
  match tsv_users s !! username with
  | None => false
  | Some owner => seqb (en_secret owner) password
  end.

(** server.go:200-222 [handleImplicitGrant]. *)
Definition t_handle_implicit (ev : t_env) (s : t_server) (username password : string)
  (rq : authorization_request) : t_result :=
  if negb (scope_includes (cfg_allowed_scope (tsv_config s)) (aq_scope rq)) then
    TDone s (OError (set_error_redirect (InvalidScope "") (aq_redirect_uri rq) (aq_state rq) true))
  else if negb (t_owner_ok s username password) then
    TDone s (OError (set_error_redirect (AccessDenied "") (aq_redirect_uri rq) (aq_state rq) true))
  else match t_issue_tokens ev s false (aq_scope rq) (aq_client_id rq) username "" with
       | None => TPanic s
       | Some (s', r) =>
           TDone s' (OToken (set_token_redirect r (aq_redirect_uri rq) (aq_state rq)))
       end.

(** server.go:224-255 [handleAuthorizationCodeGrantAuthorization]. *)
Definition t_handle_code_authorization (ev : t_env) (s : t_server) (username password : string)
  (rq : authorization_request) : t_result :=
  if negb (scope_includes (cfg_allowed_scope (tsv_config s)) (aq_scope rq)) then
    TDone s (OError (set_error_redirect (InvalidScope "") (aq_redirect_uri rq) (aq_state rq) false))
  else if negb (t_owner_ok s username password) then
    TDone s (OError (set_error_redirect (AccessDenied "") (aq_redirect_uri rq) (aq_state rq) false))
  else match cfg_must_generate (tsv_config s) (tev_rand ev) with
       | None => TPanic s
       | Some (code, _) =>
           let r := new_code_response (token_string code) (aq_redirect_uri rq) (aq_state rq) in
           let cred :=
             {| tcd_client_id := aq_client_id rq; tcd_username := username;
                tcd_expires_at := time_add (now_at (tev_now_code ev)) (cfg_code_lifespan (tsv_config s));
                tcd_scope := aq_scope rq; tcd_redirect_uri := aq_redirect_uri rq;
                tcd_code := ""; tcd_used := false |} in
           TDone (t_set_codes s (<[signature_string code := cred]> (tsv_codes s))) (OCode r)
       end.

(** server.go:153-198 [authorizationEndpoint]. *)
Definition t_authorization_endpoint (ev : t_env) (s : t_server) (r : request) : t_result :=
  match parse_authorization_request r with
  | inr e => TDone s (OError e)
  | inl req =>
      if negb (known_response_type (aq_response_type req)) then
        TDone s (OError (InvalidRequest "unknown response type"))
      else match tsv_clients s !! aq_client_id req with
      | None => TDone s (OError (InvalidClient "unknown client"))
      | Some client =>
          if negb (seqb (en_redirect_uri client) (aq_redirect_uri req)) then
            TDone s (OError (InvalidRequest "invalid redirect URI"))
          else if seqb (rq_method r) "GET" then TDone s ONotice
          else
            let username := vget (post_form r) "username" in
            let password := vget (post_form r) "password" in
            if seqb (aq_response_type req) TokenResponseType
            then t_handle_implicit ev s username password req
            else t_handle_code_authorization ev s username password req
      end
  end.

(** server.go:297-316 [handleResourceOwnerPasswordCredentialsGrant]. *)
Definition t_handle_password (ev : t_env) (s : t_server) (rq : token_request) : t_result :=
  if negb (t_owner_ok s (tq_username rq) (tq_password rq)) then TDone s (OError (AccessDenied ""))
  else if negb (scope_includes (cfg_allowed_scope (tsv_config s)) (tq_scope rq)) then
    TDone s (OError (InvalidScope ""))
  else match t_issue_tokens ev s true (tq_scope rq) (tq_client_id rq) (tq_username rq) "" with
       | None => TPanic s
       | Some (s', r) => TDone s' (OToken r)
       end.

(** server.go:318-336 [handleClientCredentialsGrant]; a missing client would be
    a nil dereference. *)
Definition t_handle_client_credentials (ev : t_env) (s : t_server) (rq : token_request) : t_result :=
  match tsv_clients s !! tq_client_id rq with
  | None => TPanic s
  | Some client =>
      if negb (en_confidential client) then TDone s (OError (InvalidClient "unknown client"))
      else if negb (scope_includes (cfg_allowed_scope (tsv_config s)) (tq_scope rq)) then
        TDone s (OError (InvalidScope ""))
      else match t_issue_tokens ev s true (tq_scope rq) (tq_client_id rq) "" "" with
           | None => TPanic s
           | Some (s', r) => TDone s' (OToken r)
           end
  end.

(** server.go:356-360 and 363-367: delete the entries issued for a code, the
    keys being visited in the given order. Deleting during range is defined in
    Go: a deleted entry is not visited again, the others once. *)
Definition t_revoke_code_order (code : string) (order : list string)
  (m : gmap string t_credential) : gmap string t_credential :=
  fold_left (fun acc key =>
    match acc !! key with
    | Some token => if seqb (tcd_code token) code then delete key acc else acc
    | None => acc
    end) order m.
(** server.go:356-360 and 363-367; the order of the map does not matter. *)
Definition t_revoke_code (code : string) (m : gmap string t_credential) : gmap string t_credential :=
  t_revoke_code_order code (map fst (map_to_list m)) m.

(** server.go:395, the credential with [Used] set. *)
Definition t_mark_used (c : t_credential) : t_credential :=
  {| tcd_client_id := tcd_client_id c; tcd_username := tcd_username c;
     tcd_expires_at := tcd_expires_at c; tcd_scope := tcd_scope c;
     tcd_redirect_uri := tcd_redirect_uri c; tcd_code := tcd_code c; tcd_used := true |}.

(** server.go:338-399 [handleAuthorizationCodeGrant]. *)
Definition t_handle_code (ev : t_env) (s : t_server) (rq : token_request) : t_result :=
  match parse_token (cfg_secret (tsv_config s)) (tq_code rq) with
  | inr msg => TDone s (OError (InvalidRequest msg))
  | inl code =>
      let sg := signature_string code in
      match tsv_codes s !! sg with
      | None => TDone s (OError (InvalidGrant "unknown authorization code"))
      | Some stored =>
          if tcd_used stored then
            let s1 := t_set_access s (t_revoke_code sg (tsv_access s)) in
            let s2 := t_set_refresh s1 (t_revoke_code sg (tsv_refresh s1)) in
            TDone s2 (OError (InvalidGrant "unknown authorization code"))
          else if time_before (tcd_expires_at stored) (now_at (tev_now_check ev)) then
            TDone s (OError (InvalidGrant "expired authorization code"))
          else if negb (seqb (tcd_client_id stored) (tq_client_id rq)) then
            TDone s (OError (InvalidGrant "invalid authorization code ownership"))
          else if negb (seqb (tcd_redirect_uri stored) (tq_redirect_uri rq)) then
            TDone s (OError (InvalidGrant "changed redirect uri"))
          else match t_issue_tokens ev s true (tcd_scope stored) (tq_client_id rq)
                       (tcd_username stored) sg with
               | None => TPanic s
               | Some (s1, r) =>
                   TDone (t_set_codes s1 (<[sg := t_mark_used stored]> (tsv_codes s1))) (OToken r)
               end
      end
  end.

(** server.go:401-447 [handleRefreshTokenGrant]. *)
Definition t_handle_refresh (ev : t_env) (s : t_server) (rq : token_request) : t_result :=
  match parse_token (cfg_secret (tsv_config s)) (tq_refresh_token rq) with
  | inr msg => TDone s (OError (InvalidRequest msg))
  | inl rt =>
      let sg := signature_string rt in
      match tsv_refresh s !! sg with
      | None => TDone s (OError (InvalidGrant "unknown refresh token"))
      | Some stored =>
          if time_before (tcd_expires_at stored) (now_at (tev_now_check ev)) then
            TDone s (OError (InvalidGrant "expired refresh token"))
          else if negb (seqb (tcd_client_id stored) (tq_client_id rq)) then
            TDone s (OError (InvalidGrant "invalid refresh token ownership"))
          else
            let sc := if scope_empty (tq_scope rq) then tcd_scope stored else tq_scope rq in
            if negb (scope_includes (tcd_scope stored) sc) then
              TDone s (OError (InvalidScope "scope exceeds the originally granted scope"))
            else match t_issue_tokens ev s true sc (tq_client_id rq) (tcd_username stored) "" with
                 | None => TPanic s
                 | Some (s1, r) =>
                     TDone (t_set_refresh s1 (delete sg (tsv_refresh s1))) (OToken r)
                 end
      end
  end.

(** server.go:257-295 [tokenEndpoint]. *)
Definition t_token_endpoint (ev : t_env) (s : t_server) (r : request) : t_result :=
  match parse_token_request r with
  | inr e => TDone s (OError e)
  | inl req =>
      if negb (known_grant_type (tq_grant_type req)) then
        TDone s (OError (InvalidRequest "unknown grant type"))
      else match tsv_clients s !! tq_client_id req with
      | None => TDone s (OError (InvalidClient "unknown client"))
      | Some client =>
          if negb (client_ok client (tq_client_secret req)) then
            TDone s (OError (InvalidClient "unknown client"))
          else if seqb (tq_grant_type req) PasswordGrantType then t_handle_password ev s req
          else if seqb (tq_grant_type req) ClientCredentialsGrantType
               then t_handle_client_credentials ev s req
          else if seqb (tq_grant_type req) AuthorizationCodeGrantType then t_handle_code ev s req
          else t_handle_refresh ev s req
      end
  end.

(** The common start of the revocation (server.go:450-481) and introspection
    (server.go:512-543) endpoints: the same statements. *)
Definition t_lookup_prologue (s : t_server) (r : request) : (lookup_request * hs_token) + error :=
  match parse_lookup_request r with
  | inr e => inr e
  | inl req =>
      if negb (seqb (lq_token_type_hint req) "")
         && negb (known_token_type (lq_token_type_hint req)) then
        inr (UnsupportedTokenType "")
      else match tsv_clients s !! lq_client_id req with
      | None => inr (InvalidClient "unknown client")
      | Some client =>
          if negb (client_ok client (lq_client_secret req)) then
            inr (InvalidClient "unknown client")
          else match parse_token (cfg_secret (tsv_config s)) (lq_token req) with
               | inr msg => inr (InvalidRequest msg)
               | inl t => inl (req, t)
               end
      end
  end.

(** server.go:449-509 [revocationEndpoint]. *)
Definition t_revocation_endpoint (s : t_server) (r : request) : t_result :=
  match t_lookup_prologue s r with
  | inr e => TDone s (OError e)
  | inl (req, token) =>
      let sg := signature_string token in
      let after_access :=
        match tsv_access s !! sg with
        | None => inl s
        | Some a =>
            if negb (seqb (tcd_client_id a) (lq_client_id req))
            then inr (InvalidClient "wrong client")
            else inl (t_set_access s (t_revoke_token (lq_client_id req) (tsv_access s) sg))
        end in
      match after_access with
      | inr e => TDone s (OError e)
      | inl s1 =>
          match tsv_refresh s1 !! sg with
          | None => TDone s1 ORevoked
          | Some f =>
              if negb (seqb (tcd_client_id f) (lq_client_id req))
              then TDone s1 (OError (InvalidClient "wrong client"))
              else TDone (t_set_refresh s1 (t_revoke_token (lq_client_id req) (tsv_refresh s1) sg))
                        ORevoked
          end
      end
  end.

(** server.go:557-562 and 574-579. *)
Definition t_describe (c : t_credential) (kind : string) : introspection_response :=
  {| ir_active := true; ir_scope := tcd_scope c; ir_client_id := tcd_client_id c;
     ir_username := tcd_username c; ir_token_type := kind;
     ir_expires_at := time_unix (tcd_expires_at c);
     ir_issued_at := 0; ir_not_before := 0; ir_subject := ""; ir_audience := "";
     ir_issuer := ""; ir_identifier := ""; ir_extra := None |}.

(** server.go:511-584 [introspectionEndpoint]. *)
Definition t_introspection_endpoint (s : t_server) (r : request) : t_result :=
  match t_lookup_prologue s r with
  | inr e => TDone s (OError e)
  | inl (req, token) =>
      let sg := signature_string token in
      let res0 := new_introspection_response false None "" "" "" in
      let after_access :=
        match tsv_access s !! sg with
        | None => inl res0
        | Some a =>
            if negb (seqb (tcd_client_id a) (lq_client_id req))
            then inr (InvalidClient "wrong client")
            else inl (t_describe a AccessToken)
        end in
      match after_access with
      | inr e => TDone s (OError e)
      | inl res1 =>
          match tsv_refresh s !! sg with
          | None => TDone s (OIntro res1)
          | Some f =>
              if negb (seqb (tcd_client_id f) (lq_client_id req))
              then TDone s (OError (InvalidClient "wrong client"))
              else TDone s (OIntro (t_describe f RefreshToken))
          end
      end
  end.

(** server.go:124-151 [ServeHTTP] up to the writing of the response. *)
Definition t_handle (ev : t_env) (s : t_server) (r : request) : t_result :=
  let path := last_segment (rq_path r) in
  if seqb path "authorize" then t_authorization_endpoint ev s r
  else if seqb path "token" then t_token_endpoint ev s r
  else if seqb path "introspect" then t_introspection_endpoint s r
  else if seqb path "revoke" then t_revocation_endpoint s r
  else TDone s ONotFound.

(** server.go:81-120 [Authorize]: the decision. *)
Definition t_authorize_decision (now : clock) (s : t_server) (r : request) (required : scope)
  : auth_result :=
  match parse_bearer_token r with
  | BPanic => AuthPanic
  | BErr e => Denied e
  | BToken tk =>
      match parse_token (cfg_secret (tsv_config s)) tk with
      | inr _ => Denied (InvalidToken "malformed token")
      | inl token =>
          match tsv_access s !! signature_string token with
          | None => Denied (InvalidToken "unknown token")
          | Some a =>
              if time_before (tcd_expires_at a) (now_at now) then Denied (InvalidToken "expired token")
              else if negb (scope_includes (tcd_scope a) required)
                   then Denied (InsufficientScope required)
              else Granted
          end
      end
  end.
(** What can be done with a server: serve a request (server.go:124-151),
    authorize a request (server.go:81-120), and set or remove an entry of the
    exported maps Clients and Users (server.go:59-60). Assigning to the other
    exported fields (configuration and credentials) is in Owner.v. *)
Inductive t_op :=
| TServe (ev : t_env) (r : request)
| TCheck (now : clock) (r : request) (required : scope)
| TSetClient (id : string) (e : entity)
| TDropClient (id : string)
| TSetUser (name : string) (e : entity)
| TDropUser (name : string).

(** server.go:59-60, assignments by the owner of the server. *)
Definition t_set_clients (s : t_server) m : t_server :=
  {| tsv_config := tsv_config s; tsv_clients := m; tsv_users := tsv_users s;
     tsv_access := tsv_access s; tsv_refresh := tsv_refresh s; tsv_codes := tsv_codes s |}.
(** server.go:60, assignment to [Users]. *)
Definition t_set_users (s : t_server) m : t_server :=
  {| tsv_config := tsv_config s; tsv_clients := tsv_clients s; tsv_users := m;
     tsv_access := tsv_access s; tsv_refresh := tsv_refresh s; tsv_codes := tsv_codes s |}.

(** One call: server.go:124-151 or 81-120, or an assignment. *)
Definition t_do_op (s : t_server) (o : t_op) : t_server * answer :=
  match o with
  | TServe ev r =>
      match t_handle ev s r with
      | TDone s' out => (s', Answered out)
      | TPanic s' => (s', Panicked)
      end
  | TCheck now r required => (s, Checked (t_authorize_decision now s r required))
  | TSetClient id e => (t_set_clients s (<[id := e]> (tsv_clients s)), Silent)
  | TDropClient id => (t_set_clients s (delete id (tsv_clients s)), Silent)
  | TSetUser name e => (t_set_users s (<[name := e]> (tsv_users s)), Silent)
  | TDropUser name => (t_set_users s (delete name (tsv_users s)), Silent)
  end.

(** The calls made on a server in order: the server afterwards and the answers. *)
Fixpoint t_do_ops (s : t_server) (l : list t_op) : t_server * list answer :=
  match l with
  | [] => (s, [])
  | o :: rest =>
      let '(s1, a) := t_do_op s o in
      let '(s2, answers) := t_do_ops s1 rest in
      (s2, a :: answers)
  end.
