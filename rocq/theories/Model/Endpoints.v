(** authorization.go, introspection.go and revocation.go *)
From Verif.Model Require Export Token.

(** authorization.go:10-16 [AuthorizationRequest]. *)
Record authorization_request := {
  aq_response_type : string;
  aq_scope : scope;
  aq_client_id : string;
  aq_redirect_uri : string;
  aq_state : string
}.

(** authorization.go:21-70 [ParseAuthorizationRequest]. *)
Definition parse_authorization_request (r : request) : authorization_request + error :=
  if negb (seqb (rq_method r) "GET") && negb (seqb (rq_method r) "POST")
  then inr (InvalidRequest "invalid HTTP method")
  else match parse_form r with
  | None => inr (InvalidRequest "malformed query parameters or form data")
  | Some f =>
      let form := f_form f in
      let state := vget form "state" in
      let response_type := vget form "response_type" in
      if seqb response_type "" then inr (InvalidRequest "missing response type")
      else
        let scope := parse_scope (vget form "scope") in
        let client_id := vget form "client_id" in
        if seqb client_id "" then inr (InvalidRequest "missing client ID")
        else match query_unescape (vget form "redirect_uri") with
        | None => inr (InvalidRequest "missing redirect URI")
        | Some redirect_uri =>
            if seqb redirect_uri "" then inr (InvalidRequest "missing redirect URI")
            else match parse_request_uri redirect_uri with
            | None => inr (InvalidRequest "invalid redirect URI")
            | Some u =>
                if negb (seqb (u_fragment u) "") then inr (InvalidRequest "invalid redirect URI")
                else inl {| aq_response_type := response_type; aq_scope := scope;
                            aq_client_id := client_id; aq_redirect_uri := redirect_uri;
                            aq_state := state |}
            end
        end
  end.

(** introspection.go:16-21 and revocation.go:11-16: the two request types have
    the same fields. *)
Record lookup_request := {
  lq_token : string;
  lq_token_type_hint : string;
  lq_client_id : string;
  lq_client_secret : string
}.

(** introspection.go:26-59 [ParseIntrospectionRequest] and
    revocation.go:21-54 [ParseRevocationRequest]: identical code. *)
Definition parse_lookup_request (r : request) : lookup_request + error :=
  if negb (seqb (rq_method r) "POST") then inr (InvalidRequest "invalid HTTP method")
  else match parse_form r with
  | None => inr (InvalidRequest "malformed query parameters or body form")
  | Some f =>
      let post := f_post f in
      let token := vget post "token" in
      if seqb token "" then inr (InvalidRequest "missing token")
      else
        let hint := vget post "token_type_hint" in
        match basic_auth r with
        | None => inr (InvalidRequest "missing or invalid HTTP authorization header")
        | Some (client_id, client_secret) =>
            inl {| lq_token := token; lq_token_type_hint := hint;
                   lq_client_id := client_id; lq_client_secret := client_secret |}
        end
  end.
(** introspection.go:26-59 [ParseIntrospectionRequest]. *)
Definition parse_introspection_request := parse_lookup_request.
(** revocation.go:21-54 [ParseRevocationRequest]. *)
Definition parse_revocation_request := parse_lookup_request.

(** introspection.go:102-123 [IntrospectionRequestValues] and
    revocation.go:57-78 [RevocationRequestValues]: identical code. *)
Definition lookup_request_values (r : lookup_request) : values :=
  let m := vput "token" (lq_token r) (lq_token r) ∅ in
  vput "token_type_hint" (lq_token_type_hint r) (lq_token_type_hint r) m.

(** introspection.go:126-145 and revocation.go:81-100. *)
Definition build_lookup_request (uri : string) (r : lookup_request) : option request :=
  build_post uri (lookup_request_values r) (lq_client_id r) (lq_client_secret r).
(** introspection.go:126-145 [BuildIntrospectionRequest]. *)
Definition build_introspection_request := build_lookup_request.
(** revocation.go:81-100 [BuildRevocationRequest]. *)
Definition build_revocation_request := build_lookup_request.

(** introspection.go:63-78 [IntrospectionResponse]. *)
Record introspection_response := {
  ir_active : bool;
  ir_scope : scope;
  ir_client_id : string;
  ir_username : string;
  ir_token_type : string;
  ir_expires_at : Z;
  ir_issued_at : Z;
  ir_not_before : Z;
  ir_subject : string;
  ir_audience : string;
  ir_issuer : string;
  ir_identifier : string;
  ir_extra : go_map
}.

(** introspection.go:81-89 [NewIntrospectionResponse]. *)
Definition new_introspection_response (active : bool) (sc : scope)
  (client_id username token_type : string) : introspection_response :=
  {| ir_active := active; ir_scope := sc; ir_client_id := client_id;
     ir_username := username; ir_token_type := token_type; ir_expires_at := 0;
     ir_issued_at := 0; ir_not_before := 0; ir_subject := ""; ir_audience := "";
     ir_issuer := ""; ir_identifier := ""; ir_extra := None |}.

(** The JSON document (struct tags introspection.go:64-77). *)
Definition introspection_json (r : introspection_response) : json :=
  JObj ([("active", JBool (ir_active r))]
        ++ omit_scope "scope" (ir_scope r)
        ++ omit_string "client_id" (ir_client_id r)
        ++ omit_string "username" (ir_username r)
        ++ omit_string "token_type" (ir_token_type r)
        ++ omit_int "exp" (ir_expires_at r)
        ++ omit_int "iat" (ir_issued_at r)
        ++ omit_int "nbf" (ir_not_before r)
        ++ omit_string "sub" (ir_subject r)
        ++ omit_string "aud" (ir_audience r)
        ++ omit_string "iss" (ir_issuer r)
        ++ omit_string "jti" (ir_identifier r)
        ++ omit_map "extra" (ir_extra r)).

(** introspection.go:92-99 [WriteIntrospectionResponse]. *)
Definition write_introspection_response (w : rw) (r : introspection_response)
  : option (rw * bool) :=
  if ir_active r && negb (known_token_type (ir_token_type r)) then Some (w, false)
  else write w (introspection_json r) 200.

(** json.Unmarshal into an [IntrospectionResponse]. *)
Definition introspection_of_json (j : json) : option introspection_response :=
  match j with
  | JNull => Some (new_introspection_response false None "" "" "")
  | JObj o =>
      match decode_field store_bool false "active" o,
            decode_field store_scope None "scope" o,
            decode_field store_string "" "client_id" o,
            decode_field store_string "" "username" o,
            decode_field store_string "" "token_type" o,
            decode_field store_int 0%Z "exp" o,
            decode_field store_int 0%Z "iat" o,
            decode_field store_int 0%Z "nbf" o with
      | Some ac, Some sc, Some ci, Some un, Some tt', Some ex, Some ia, Some nb =>
          match decode_field store_string "" "sub" o,
                decode_field store_string "" "aud" o,
                decode_field store_string "" "iss" o,
                decode_field store_string "" "jti" o,
                decode_field store_map None "extra" o with
          | Some su, Some au, Some is_, Some jt, Some xt =>
              Some {| ir_active := ac; ir_scope := sc; ir_client_id := ci;
                      ir_username := un; ir_token_type := tt'; ir_expires_at := ex;
                      ir_issued_at := ia; ir_not_before := nb; ir_subject := su;
                      ir_audience := au; ir_issuer := is_; ir_identifier := jt;
                      ir_extra := xt |}
          | _, _, _, _, _ => None
          end
      | _, _, _, _, _, _, _, _ => None
      end
  | _ => None
  end.

(** introspection.go:148-174 [ParseIntrospectionResponse]; [None] is an error. *)
Definition parse_introspection_response (rs : response) (limit : Z)
  : option introspection_response :=
  match read_json_body rs limit with
  | None => None
  | Some data => match json_parse data with
                 | Some j => introspection_of_json j
                 | None => None
                 end
  end.
