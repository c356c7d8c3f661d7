(** server.go once more, now as programs of single memory accesses that any
    number of goroutines run against one shared server. *)
From Verif.Model Require Export Server History.

(** ** Memory *)

(** The three credential maps, server.go:61-63. *)
Inductive table := TAccess | TRefresh | TCodes.

(** server.go:57-65: the maps hold pointers, the heap what they point to.
    Clients and users are never changed through their pointers, so the structs
    themselves are kept in the maps. *)
Record mem := {
  me_config : server_config;
  me_clients : gmap string entity;
  me_users : gmap string entity;
  me_access : gmap string positive;
  me_refresh : gmap string positive;
  me_codes : gmap string positive;
  me_heap : gmap positive credential
}.

(** server.go:61-63: the credential map a table name stands for. *)
Definition me_table (m : mem) (t : table) : gmap string positive :=
  match t with TAccess => me_access m | TRefresh => me_refresh m | TCodes => me_codes m end.

(** Assignments to one field of the memory (server.go:57-65). *)
Definition me_set_table (m : mem) (t : table) (x : gmap string positive) : mem :=
  {| me_config := me_config m; me_clients := me_clients m; me_users := me_users m;
     me_access := match t with TAccess => x | _ => me_access m end;
     me_refresh := match t with TRefresh => x | _ => me_refresh m end;
     me_codes := match t with TCodes => x | _ => me_codes m end;
     me_heap := me_heap m |}.
(** A write through a credential pointer (server.go:395). *)
Definition me_set_heap (m : mem) (h : gmap positive credential) : mem :=
  {| me_config := me_config m; me_clients := me_clients m; me_users := me_users m; me_access := me_access m;
     me_refresh := me_refresh m; me_codes := me_codes m; me_heap := h |}.
(** server.go:59, assignment to an entry of [Clients]. *)
Definition me_set_clients (m : mem) (x : gmap string entity) : mem :=
  {| me_config := me_config m; me_clients := x; me_users := me_users m; me_access := me_access m;
     me_refresh := me_refresh m; me_codes := me_codes m; me_heap := me_heap m |}.
(** server.go:60, assignment to an entry of [Users]. *)
Definition me_set_users (m : mem) (x : gmap string entity) : mem :=
  {| me_config := me_config m; me_clients := me_clients m; me_users := x; me_access := me_access m;
     me_refresh := me_refresh m; me_codes := me_codes m; me_heap := me_heap m |}.

(** server.go:58, assignment to [Config]. *)
Definition me_set_config (m : mem) (x : server_config) : mem :=
  {| me_config := x; me_clients := me_clients m; me_users := me_users m;
     me_access := me_access m; me_refresh := me_refresh m; me_codes := me_codes m;
     me_heap := me_heap m |}.

(** ** Programs *)

(** What a call waits for on the connection of its client: that the body of the
    request arrives (Request.ParseForm reads it to the end, token.go:41,
    authorization.go:28, introspection.go:33, revocation.go:28), or that the
    response is taken (oauth2.go:83, bearer.go:91 and the other writes). *)
Inductive wait := ForBody | ForAnswer.

(** A goroutine's remaining work: its next access to shared memory, to the
    mutex or to its connection, and what follows. Other work on the request,
    the response writer and local variables is part of the continuations. The readings of the clock
    and of the random source are fixed beforehand in an [env], over which all
    statements quantify. *)
Inductive prog (A : Type) : Type :=
| PRet (a : A)                                           (* the call returned *)
| PPanic                                                 (* the call panicked *)
| PLookup (t : table) (k : string) (f : option positive -> prog A)   (* x, found := m[k] *)
| PInsert (t : table) (k : string) (l : positive) (p : prog A)       (* m[k] = l *)
| PDelete (t : table) (k : string) (p : prog A)          (* delete(m, k) *)
| PKeys (t : table) (f : list string -> prog A)          (* range m: the order of the visit *)
| PNew (c : credential) (f : positive -> prog A)         (* &ServerCredential{...} *)
| PLoad (l : positive) (f : credential -> prog A)        (* read a field of *l *)
| PUse (l : positive) (p : prog A)                       (* l.Used = true *)
| PClient (k : string) (f : option entity -> prog A)     (* s.Clients[k] *)
| PUser (k : string) (f : option entity -> prog A)       (* s.Users[k] *)
| PConfig (f : server_config -> prog A)                  (* s.Config *)
| PSetConfig (cfg : server_config) (p : prog A)          (* s.Config = cfg *)
| PSetClient (k : string) (e : option entity) (p : prog A) (* s.Clients[k] = e, or delete *)
| PSetUser (k : string) (e : option entity) (p : prog A)   (* s.Users[k] = e, or delete *)
| PWait (x : wait) (p : prog A)                          (* the connection *)
| PLock (p : prog A)                                     (* s.Mutex.Lock() *)
| PUnlock (p : prog A).                                  (* s.Mutex.Unlock() *)
Arguments PRet {A} a.
Arguments PPanic {A}.
Arguments PLookup {A} t k f.
Arguments PInsert {A} t k l p.
Arguments PDelete {A} t k p.
Arguments PKeys {A} t f.
Arguments PNew {A} c f.
Arguments PLoad {A} l f.
Arguments PUse {A} l p.
Arguments PClient {A} k f.
Arguments PUser {A} k f.
Arguments PConfig {A} f.
Arguments PSetConfig {A} cfg p.
Arguments PSetClient {A} k e p.
Arguments PSetUser {A} k e p.
Arguments PWait {A} x p.
Arguments PLock {A} p.
Arguments PUnlock {A} p.

(** Sequential composition; a panic skips what follows. *)
Fixpoint pbind {A B} (p : prog A) (g : A -> prog B) : prog B :=
  match p with
  | PRet a => g a
  | PPanic => PPanic
  | PLookup t k f => PLookup t k (fun x => pbind (f x) g)
  | PInsert t k l q => PInsert t k l (pbind q g)
  | PDelete t k q => PDelete t k (pbind q g)
  | PKeys t f => PKeys t (fun x => pbind (f x) g)
  | PNew c f => PNew c (fun x => pbind (f x) g)
  | PLoad l f => PLoad l (fun x => pbind (f x) g)
  | PUse l q => PUse l (pbind q g)
  | PClient k f => PClient k (fun x => pbind (f x) g)
  | PUser k f => PUser k (fun x => pbind (f x) g)
  | PConfig f => PConfig (fun x => pbind (f x) g)
  | PSetConfig cfg q => PSetConfig cfg (pbind q g)
  | PSetClient k e q => PSetClient k e (pbind q g)
  | PSetUser k e q => PSetUser k e (pbind q g)
  | PWait x q => PWait x (pbind q g)
  | PLock q => PLock (pbind q g)
  | PUnlock q => PUnlock (pbind q g)
  end.

(** [defer s.Mutex.Unlock()], server.go:84 and 127: the deferred call runs
    when the function returns and when it panics. *)
Fixpoint defer_unlock {A} (p : prog A) : prog A :=
  match p with
  | PRet a => PUnlock (PRet a)
  | PPanic => PUnlock PPanic
  | PLookup t k f => PLookup t k (fun x => defer_unlock (f x))
  | PInsert t k l q => PInsert t k l (defer_unlock q)
  | PDelete t k q => PDelete t k (defer_unlock q)
  | PKeys t f => PKeys t (fun x => defer_unlock (f x))
  | PNew c f => PNew c (fun x => defer_unlock (f x))
  | PLoad l f => PLoad l (fun x => defer_unlock (f x))
  | PUse l q => PUse l (defer_unlock q)
  | PClient k f => PClient k (fun x => defer_unlock (f x))
  | PUser k f => PUser k (fun x => defer_unlock (f x))
  | PConfig f => PConfig (fun x => defer_unlock (f x))
  | PSetConfig cfg q => PSetConfig cfg (defer_unlock q)
  | PSetClient k e q => PSetClient k e (defer_unlock q)
  | PSetUser k e q => PSetUser k e (defer_unlock q)
  | PWait x q => PWait x (defer_unlock q)
  | PLock q => PLock (defer_unlock q)
  | PUnlock q => PUnlock (defer_unlock q)
  end.

(** ** The handlers *)

(** A program that ends with a response. *)
Local Notation out o := (PRet o).
(** A program that ends with an error response. *)
Local Notation fail e := (PRet (OError e)).

(** server.go:586-628 [issueTokens]. *)
Definition issue_prog (ev : env) (issue_refresh : bool) (sc : scope)
  (client_id username code : string) (k : token_response -> prog outcome) : prog outcome :=
  let cred now life :=
    {| cd_client_id := client_id; cd_username := username; cd_expires_at := (now + life)%Z;
       cd_scope := sc; cd_redirect_uri := ""; cd_code := code; cd_used := false |} in
  PConfig (fun cfg =>
  match cfg_must_generate cfg (ev_rand ev) with
  | None => PPanic
  | Some (access, src) =>
      let finish (refresh : option hs_token) :=
        PConfig (fun cfg =>
        let r0 := new_bearer_token_response (token_string access)
                    (Z.quot (cfg_access_lifespan cfg) second) in
        let r := {| tr_token_type := tr_token_type r0; tr_access_token := tr_access_token r0;
                    tr_expires_in := tr_expires_in r0;
                    tr_refresh_token :=
                      match refresh with Some t => token_string t | None => "" end;
                    tr_scope := sc; tr_state := tr_state r0;
                    tr_redirect_uri := tr_redirect_uri r0 |} in
        PConfig (fun cfg =>
        PNew (cred (ev_now_access ev) (cfg_access_lifespan cfg)) (fun la =>
        PInsert TAccess (signature_string access) la
          match refresh with
          | Some t =>
              PConfig (fun cfg =>
              PNew (cred (ev_now_refresh ev) (cfg_refresh_lifespan cfg)) (fun lr =>
              PInsert TRefresh (signature_string t) lr (k r)))
          | None => k r
          end))) in
      if issue_refresh then
        PConfig (fun cfg =>
        match cfg_must_generate cfg src with
        | None => PPanic
        | Some (t, _) => finish (Some t)
        end)
      else finish None
  end).

(** server.go:200-222 [handleImplicitGrant]. *)
Definition implicit_prog (ev : env) (username password : string)
  (rq : authorization_request) : prog outcome :=
  PConfig (fun cfg => if negb (scope_includes (cfg_allowed_scope cfg) (aq_scope rq)) then
    fail (set_error_redirect (InvalidScope "") (aq_redirect_uri rq) (aq_state rq) true)
  else PUser username (fun owner =>
    if match owner with None => true | Some o => negb (seqb (en_secret o) password) end then
      fail (set_error_redirect (AccessDenied "") (aq_redirect_uri rq) (aq_state rq) true)
    else issue_prog ev false (aq_scope rq) (aq_client_id rq) username "" (fun r =>
         out (OToken (set_token_redirect r (aq_redirect_uri rq) (aq_state rq)))))).

(** server.go:224-255 [handleAuthorizationCodeGrantAuthorization]. *)
Definition code_authorization_prog (ev : env) (username password : string)
  (rq : authorization_request) : prog outcome :=
  PConfig (fun cfg => if negb (scope_includes (cfg_allowed_scope cfg) (aq_scope rq)) then
    fail (set_error_redirect (InvalidScope "") (aq_redirect_uri rq) (aq_state rq) false)
  else PUser username (fun owner =>
    if match owner with None => true | Some o => negb (seqb (en_secret o) password) end then
      fail (set_error_redirect (AccessDenied "") (aq_redirect_uri rq) (aq_state rq) false)
    else PConfig (fun cfg => match cfg_must_generate cfg (ev_rand ev) with
         | None => PPanic
         | Some (code, _) =>
             let r := new_code_response (token_string code) (aq_redirect_uri rq) (aq_state rq) in
             PConfig (fun cfg => PNew {| cd_client_id := aq_client_id rq; cd_username := username;
                     cd_expires_at := (ev_now_code ev + cfg_code_lifespan cfg)%Z;
                     cd_scope := aq_scope rq; cd_redirect_uri := aq_redirect_uri rq;
                     cd_code := ""; cd_used := false |} (fun l =>
             PInsert TCodes (signature_string code) l (out (OCode r))))
         end))).

(** server.go:153-198 [authorizationEndpoint]. *)
Definition authorization_prog (ev : env) (r : request) : prog outcome :=
  match parse_authorization_request r with
  | inr e => fail e
  | inl req =>
      if negb (known_response_type (aq_response_type req)) then
        fail (InvalidRequest "unknown response type")
      else PClient (aq_client_id req) (fun c =>
        match c with
        | None => fail (InvalidClient "unknown client")
        | Some client =>
            if negb (seqb (en_redirect_uri client) (aq_redirect_uri req)) then
              fail (InvalidRequest "invalid redirect URI")
            else if seqb (rq_method r) "GET" then out ONotice
            else
              let username := vget (post_form r) "username" in
              let password := vget (post_form r) "password" in
              if seqb (aq_response_type req) TokenResponseType
              then implicit_prog ev username password req
              else code_authorization_prog ev username password req
        end)
  end.

(** server.go:297-316 [handleResourceOwnerPasswordCredentialsGrant]. *)
Definition password_prog (ev : env) (rq : token_request) : prog outcome :=
  PUser (tq_username rq) (fun owner =>
    if match owner with None => true | Some o => negb (seqb (en_secret o) (tq_password rq)) end
    then fail (AccessDenied "")
    else PConfig (fun cfg => if negb (scope_includes (cfg_allowed_scope cfg) (tq_scope rq)) then
      fail (InvalidScope "")
    else issue_prog ev true (tq_scope rq) (tq_client_id rq) (tq_username rq) "" (fun r =>
         out (OToken r)))).

(** server.go:318-336 [handleClientCredentialsGrant]. *)
Definition client_credentials_prog (ev : env) (rq : token_request)
  : prog outcome :=
  PClient (tq_client_id rq) (fun c =>
    match c with
    | None => PPanic
    | Some client =>
        if negb (en_confidential client) then fail (InvalidClient "unknown client")
        else PConfig (fun cfg => if negb (scope_includes (cfg_allowed_scope cfg) (tq_scope rq)) then
          fail (InvalidScope "")
        else issue_prog ev true (tq_scope rq) (tq_client_id rq) "" "" (fun r =>
             out (OToken r)))
    end).

(** server.go:356-360 and 363-367: the rest of the loop, with the given keys
    still to visit. An entry that is no longer there is not visited. *)
Fixpoint revoke_loop (t : table) (code : string) (keys : list string) (next : prog outcome)
  : prog outcome :=
  match keys with
  | [] => next
  | key :: rest =>
      PLookup t key (fun x =>
        match x with
        | None => revoke_loop t code rest next
        | Some l => PLoad l (fun token =>
            if seqb (cd_code token) code
            then PDelete t key (revoke_loop t code rest next)
            else revoke_loop t code rest next)
        end)
  end.

(** server.go:338-399 [handleAuthorizationCodeGrant]. *)
Definition code_prog (ev : env) (rq : token_request) : prog outcome :=
  PConfig (fun cfg =>
  match parse_token (cfg_secret cfg) (tq_code rq) with
  | inr msg => fail (InvalidRequest msg)
  | inl code =>
      let sg := signature_string code in
      PLookup TCodes sg (fun x =>
        match x with
        | None => fail (InvalidGrant "unknown authorization code")
        | Some l =>
            PLoad l (fun stored =>
            if cd_used stored then
              PKeys TAccess (fun ka => revoke_loop TAccess sg ka (
              PKeys TRefresh (fun kr => revoke_loop TRefresh sg kr (
              fail (InvalidGrant "unknown authorization code")))))
            else PLoad l (fun stored =>
            if (cd_expires_at stored <? ev_now_check ev)%Z then
              fail (InvalidGrant "expired authorization code")
            else PLoad l (fun stored =>
            if negb (seqb (cd_client_id stored) (tq_client_id rq)) then
              fail (InvalidGrant "invalid authorization code ownership")
            else PLoad l (fun stored =>
            if negb (seqb (cd_redirect_uri stored) (tq_redirect_uri rq)) then
              fail (InvalidGrant "changed redirect uri")
            else PLoad l (fun stored =>
              issue_prog ev true (cd_scope stored) (tq_client_id rq) (cd_username stored) sg
                (fun r => PUse l (out (OToken r))))))))
        end)
  end).

(** server.go:401-447 [handleRefreshTokenGrant]. *)
Definition refresh_prog (ev : env) (rq : token_request) : prog outcome :=
  PConfig (fun cfg =>
  match parse_token (cfg_secret cfg) (tq_refresh_token rq) with
  | inr msg => fail (InvalidRequest msg)
  | inl rt =>
      let sg := signature_string rt in
      PLookup TRefresh sg (fun x =>
        match x with
        | None => fail (InvalidGrant "unknown refresh token")
        | Some l =>
            PLoad l (fun stored =>
            if (cd_expires_at stored <? ev_now_check ev)%Z then
              fail (InvalidGrant "expired refresh token")
            else PLoad l (fun stored =>
            if negb (seqb (cd_client_id stored) (tq_client_id rq)) then
              fail (InvalidGrant "invalid refresh token ownership")
            else PLoad l (fun stored =>
              let sc := if scope_empty (tq_scope rq) then cd_scope stored else tq_scope rq in
              PLoad l (fun stored =>
              if negb (scope_includes (cd_scope stored) sc) then
                fail (InvalidScope "scope exceeds the originally granted scope")
              else PLoad l (fun stored =>
                issue_prog ev true sc (tq_client_id rq) (cd_username stored) "" (fun r =>
                PDelete TRefresh sg (out (OToken r))))))))
        end)
  end).

(** server.go:257-295 [tokenEndpoint]. *)
Definition token_prog (ev : env) (r : request) : prog outcome :=
  match parse_token_request r with
  | inr e => fail e
  | inl req =>
      if negb (known_grant_type (tq_grant_type req)) then
        fail (InvalidRequest "unknown grant type")
      else PClient (tq_client_id req) (fun c =>
        match c with
        | None => fail (InvalidClient "unknown client")
        | Some client =>
            if en_confidential client && negb (seqb (en_secret client) (tq_client_secret req)) then
              fail (InvalidClient "unknown client")
            else if seqb (tq_grant_type req) PasswordGrantType then password_prog ev req
            else if seqb (tq_grant_type req) ClientCredentialsGrantType
                 then client_credentials_prog ev req
            else if seqb (tq_grant_type req) AuthorizationCodeGrantType then code_prog ev req
            else refresh_prog ev req
        end)
  end.

(** server.go:450-481 and 512-543, then [k]. *)
Definition lookup_prog (r : request)
  (k : lookup_request -> string -> prog outcome) : prog outcome :=
  match parse_lookup_request r with
  | inr e => fail e
  | inl req =>
      if negb (seqb (lq_token_type_hint req) "")
         && negb (known_token_type (lq_token_type_hint req)) then
        fail (UnsupportedTokenType "")
      else PClient (lq_client_id req) (fun c =>
        match c with
        | None => fail (InvalidClient "unknown client")
        | Some client =>
            if en_confidential client && negb (seqb (en_secret client) (lq_client_secret req)) then
              fail (InvalidClient "unknown client")
            else PConfig (fun cfg => match parse_token (cfg_secret cfg) (lq_token req) with
                 | inr msg => fail (InvalidRequest msg)
                 | inl token => k req (signature_string token)
                 end)
        end)
  end.

(** server.go:630-644 [revokeToken], then [k]. *)
Definition revoke_prog (client_id : string) (t : table) (signature : string) (k : prog outcome)
  : prog outcome :=
  PLookup t signature (fun x =>
    match x with
    | None => k
    | Some l => PLoad l (fun token =>
        if negb (seqb (cd_client_id token) client_id) then k else PDelete t signature k)
    end).

(** server.go:449-509 [revocationEndpoint]. *)
Definition revocation_prog (r : request) : prog outcome :=
  lookup_prog r (fun req sg =>
    let rest :=
      PLookup TRefresh sg (fun x =>
        match x with
        | None => out ORevoked
        | Some l => PLoad l (fun f =>
            if negb (seqb (cd_client_id f) (lq_client_id req))
            then fail (InvalidClient "wrong client")
            else revoke_prog (lq_client_id req) TRefresh sg (out ORevoked))
        end) in
    PLookup TAccess sg (fun x =>
      match x with
      | None => rest
      | Some l => PLoad l (fun a =>
          if negb (seqb (cd_client_id a) (lq_client_id req))
          then fail (InvalidClient "wrong client")
          else revoke_prog (lq_client_id req) TAccess sg rest)
      end)).

(** server.go:557-562 and 574-579: four reads through the pointer. *)
Definition describe_prog (l : positive) (kind : string)
  (k : introspection_response -> prog outcome) : prog outcome :=
  PLoad l (fun c1 => PLoad l (fun c2 => PLoad l (fun c3 => PLoad l (fun c4 =>
    k {| ir_active := true; ir_scope := cd_scope c1; ir_client_id := cd_client_id c2;
         ir_username := cd_username c3; ir_token_type := kind;
         ir_expires_at := (cd_expires_at c4 / second)%Z;
         ir_issued_at := 0; ir_not_before := 0; ir_subject := ""; ir_audience := "";
         ir_issuer := ""; ir_identifier := ""; ir_extra := None |})))).

(** server.go:511-584 [introspectionEndpoint]. *)
Definition introspection_prog (r : request) : prog outcome :=
  lookup_prog r (fun req sg =>
    let rest (res : introspection_response) :=
      PLookup TRefresh sg (fun x =>
        match x with
        | None => out (OIntro res)
        | Some l => PLoad l (fun f =>
            if negb (seqb (cd_client_id f) (lq_client_id req))
            then fail (InvalidClient "wrong client")
            else describe_prog l RefreshToken (fun res => out (OIntro res)))
        end) in
    PLookup TAccess sg (fun x =>
      match x with
      | None => rest (new_introspection_response false None "" "" "")
      | Some l => PLoad l (fun a =>
          if negb (seqb (cd_client_id a) (lq_client_id req))
          then fail (InvalidClient "wrong client")
          else describe_prog l AccessToken rest)
      end)).

(** server.go:129-150, the body of [ServeHTTP]. *)
Definition handle_prog (ev : env) (r : request) : prog outcome :=
  let path := last_segment (rq_path r) in
  if seqb path "authorize" then authorization_prog ev r
  else if seqb path "token" then token_prog ev r
  else if seqb path "introspect" then introspection_prog r
  else if seqb path "revoke" then revocation_prog r
  else out ONotFound.

(** server.go:86-119, the body of [Authorize]. *)
Definition decision_prog (now : Z) (r : request) (required : scope)
  : prog auth_result :=
  match parse_bearer_token r with
  | BPanic => PPanic
  | BErr e => PRet (Denied e)
  | BToken tk =>
      PConfig (fun cfg => match parse_token (cfg_secret cfg) tk with
      | inr _ => PRet (Denied (InvalidToken "malformed token"))
      | inl token =>
          PLookup TAccess (signature_string token) (fun x =>
            match x with
            | None => PRet (Denied (InvalidToken "unknown token"))
            | Some l =>
                PLoad l (fun a =>
                if (cd_expires_at a <? now)%Z then PRet (Denied (InvalidToken "expired token"))
                else PLoad l (fun a =>
                if negb (scope_includes (cd_scope a) required)
                then PRet (Denied (InsufficientScope required))
                else PRet Granted))
            end)
      end)
  end.

(** ** Calls *)

(** A call one goroutine makes, with the writer it is given: [ServeHTTP],
    [Authorize], or an assignment by the owner of the server, who holds the
    exported mutex meanwhile (server.go:58-64): to an entry of Clients or Users,
    to an entry of one of the credential maps ([None] deletes it), or to Config. *)
Inductive call :=
| CServe (ev : env) (r : request) (w : rw)
| CAuthorize (now : Z) (r : request) (required : scope) (w : rw)
| CSetClient (id : string) (e : option entity)
| CSetUser (name : string) (e : option entity)
| CStore (t : table) (k : string) (c : option credential)
| CSetConfig (cfg : server_config).

(** What a call that does not panic leaves behind: the writer, and for
    [Authorize] the value returned. *)
Inductive reply :=
| Served (w : rw)
| Authorized (b : bool) (w : rw)
| Assigned.

(** server.go:139-150 with the method checks at token.go:36, authorization.go:23,
    introspection.go:28 and revocation.go:23 and request.go parsePostForm: does
    the call read the body of the request? *)
Definition reads_body (r : request) : bool :=
  let path := last_segment (rq_path r) in
  (seqb path "authorize" || seqb path "token" || seqb path "introspect" || seqb path "revoke")
  && seqb (rq_method r) "POST"
  && match rq_preset r, rq_body r with
     | None, Some _ =>
         seqb (fst (parse_media_type (if seqb (rq_ctype r) "" then "application/octet-stream"
                                      else rq_ctype r))) form_ctype
     | _, _ => false
     end.

(** The body of the call between Lock and Unlock. The body of the request is
    read before the first access to the server, the response is written after
    the last. Simplification: every response may have to wait, where net/http
    keeps a short one in its buffers. *)
Definition body_prog (c : call) : prog reply :=
  match c with
  | CServe ev r w =>
      let work := pbind (handle_prog ev r) (fun o =>
        match write_outcome w o with
        | Some w' => PWait ForAnswer (PRet (Served w'))
        | None => PPanic
        end) in
      if reads_body r then PWait ForBody work else work
  | CAuthorize now r required w =>
      pbind (decision_prog now r required) (fun d =>
        match d with
        | Granted => PRet (Authorized true w)
        | AuthPanic => PPanic
        | Denied e => match write_bearer_error w (GErr e) with
                      | Some (w', _) => PWait ForAnswer (PRet (Authorized false w'))
                      | None => PPanic
                      end
        end)
  | CSetClient id e => PSetClient id e (PRet Assigned)
  | CSetUser name e => PSetUser name e (PRet Assigned)
  | CStore t k (Some c) => PNew c (fun l => PInsert t k l (PRet Assigned))
  | CStore t k None => PDelete t k (PRet Assigned)
  | CSetConfig cfg => PSetConfig cfg (PRet Assigned)
  end.

(** server.go:81-84 and 124-127. *)
Definition call_prog (c : call) : prog reply :=
  PLock (defer_unlock (body_prog c)).

(** ** Execution *)

(** One access to the memory, or the end of a wait. A visit of a map goes through its keys in any
    order; a new object is at any address not in use. *)
Inductive access {A} : mem -> prog A -> mem -> prog A -> Prop :=
| acc_lookup m t k f : access m (PLookup t k f) m (f (me_table m t !! k))
| acc_insert m t k l p :
    access m (PInsert t k l p) (me_set_table m t (<[k := l]> (me_table m t))) p
| acc_delete m t k p :
    access m (PDelete t k p) (me_set_table m t (delete k (me_table m t))) p
| acc_keys m t f keys :
    Permutation keys (map fst (map_to_list (me_table m t))) ->
    access m (PKeys t f) m (f keys)
| acc_new m c f l :
    me_heap m !! l = None ->
    access m (PNew c f) (me_set_heap m (<[l := c]> (me_heap m))) (f l)
| acc_load m l f c : me_heap m !! l = Some c -> access m (PLoad l f) m (f c)
| acc_use m l p c :
    me_heap m !! l = Some c ->
    access m (PUse l p) (me_set_heap m (<[l := mark_used c]> (me_heap m))) p
| acc_client m k f : access m (PClient k f) m (f (me_clients m !! k))
| acc_user m k f : access m (PUser k f) m (f (me_users m !! k))
| acc_config m f : access m (PConfig f) m (f (me_config m))
| acc_set_config m cfg p : access m (PSetConfig cfg p) (me_set_config m cfg) p
| acc_set_client m k e p :
    access m (PSetClient k e p)
      (me_set_clients m (match e with Some x => <[k := x]> (me_clients m)
                                    | None => delete k (me_clients m) end)) p
| acc_set_user m k e p :
    access m (PSetUser k e p)
      (me_set_users m (match e with Some x => <[k := x]> (me_users m)
                                  | None => delete k (me_users m) end)) p
| acc_wait m x p : access m (PWait x p) m p.

(** All goroutines at one moment: the shared memory, whether the mutex is
    locked, what each has left to do, and, as a record for the statements
    only, the order in which they acquired the mutex. *)
Record world := {
  wo_mem : mem;
  wo_locked : bool;
  wo_threads : list (prog reply);
  wo_order : list nat
}.

(** One step of goroutine [i]. sync.Mutex: Lock waits until the mutex is
    unlocked; unlocking an unlocked mutex is a fatal error (no step). *)
Inductive wstep (i : nat) : world -> world -> Prop :=
| ws_access m b ts order p m' p' :
    ts !! i = Some p -> access m p m' p' ->
    wstep i {| wo_mem := m; wo_locked := b; wo_threads := ts; wo_order := order |}
            {| wo_mem := m'; wo_locked := b; wo_threads := <[i := p']> ts; wo_order := order |}
| ws_lock m ts order p :
    ts !! i = Some (PLock p) ->
    wstep i {| wo_mem := m; wo_locked := false; wo_threads := ts; wo_order := order |}
            {| wo_mem := m; wo_locked := true; wo_threads := <[i := p]> ts;
               wo_order := order ++ [i] |}
| ws_unlock m ts order p :
    ts !! i = Some (PUnlock p) ->
    wstep i {| wo_mem := m; wo_locked := true; wo_threads := ts; wo_order := order |}
            {| wo_mem := m; wo_locked := false; wo_threads := <[i := p]> ts;
               wo_order := order |}.

(** All goroutines start together; each makes one call. *)
Definition start (m : mem) (calls : list call) : world :=
  {| wo_mem := m; wo_locked := false; wo_threads := map call_prog calls;
     wo_order := [] |}.

(** Any schedule. *)
Inductive reaches : world -> world -> Prop :=
| reaches_refl w : reaches w w
| reaches_step w1 w2 w3 i : reaches w1 w2 -> wstep i w2 w3 -> reaches w1 w3.
