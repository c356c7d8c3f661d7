(** token.go, code.go and the token response constructor of bearer.go *)
From Verif.Model Require Export Errors.

(** token.go:17-27 [TokenRequest]. *)
Record token_request := {
  tq_grant_type : string;
  tq_scope : scope;
  tq_client_id : string;
  tq_client_secret : string;
  tq_username : string;
  tq_password : string;
  tq_refresh_token : string;
  tq_redirect_uri : string;
  tq_code : string
}.

(** token.go:34-102 [ParseTokenRequest]. *)
Definition parse_token_request (r : request) : token_request + error :=
  if negb (seqb (rq_method r) "POST") then inr (InvalidRequest "invalid HTTP method")
  else match parse_form r with
  | None => inr (InvalidRequest "malformed query parameters or body form")
  | Some f =>
      let post := f_post f in
      let grant_type := vget post "grant_type" in
      if seqb grant_type "" then inr (InvalidRequest "missing grant type")
      else
        let scope := parse_scope (vget post "scope") in
        let '(client_id, client_secret) :=
          match basic_auth r with
          | Some c => c
          | None => (vget post "client_id", vget post "client_secret")
          end in
        if seqb client_id "" then inr (InvalidRequest "missing client identification")
        else
          match query_unescape (vget post "redirect_uri") with
          | None => inr (InvalidRequest "invalid redirect URI")
          | Some redirect_uri =>
              let ok :=
                if seqb redirect_uri "" then true
                else match parse_request_uri redirect_uri with
                     | None => false
                     | Some u => seqb (u_fragment u) ""
                     end in
              if negb ok then inr (InvalidRequest "invalid redirect URI")
              else inl {| tq_grant_type := grant_type; tq_scope := scope;
                          tq_client_id := client_id; tq_client_secret := client_secret;
                          tq_username := vget post "username";
                          tq_password := vget post "password";
                          tq_refresh_token := vget post "refresh_token";
                          tq_redirect_uri := redirect_uri;
                          tq_code := vget post "code" |}
          end
  end.

(** token.go:107-116 [TokenResponse]. *)
Record token_response := {
  tr_token_type : string;
  tr_access_token : string;
  tr_expires_in : Z;
  tr_refresh_token : string;
  tr_scope : scope;
  tr_state : string;
  tr_redirect_uri : string
}.

(** token.go:119-125 [NewTokenResponse]. *)
Definition new_token_response (token_type access_token : string) (expires_in : Z)
  : token_response :=
  {| tr_token_type := token_type; tr_access_token := access_token;
     tr_expires_in := expires_in; tr_refresh_token := ""; tr_scope := None;
     tr_state := ""; tr_redirect_uri := "" |}.

(** bearer.go:10 and 14-16 [NewBearerTokenResponse]. *)
Definition BearerAccessTokenType := "bearer".
(** bearer.go:14-16 [NewBearerTokenResponse]. *)
Definition new_bearer_token_response (token : string) (expires_in : Z) : token_response :=
  new_token_response BearerAccessTokenType token expires_in.

(** token.go:129-134 [SetRedirect]. *)
Definition set_token_redirect (r : token_response) (uri state : string) : token_response :=
  {| tr_token_type := tr_token_type r; tr_access_token := tr_access_token r;
     tr_expires_in := tr_expires_in r; tr_refresh_token := tr_refresh_token r;
     tr_scope := tr_scope r; tr_state := state; tr_redirect_uri := uri |}.

(** token.go:139-167 [Map]. *)
Definition token_map (r : token_response) : gmap string string :=
  let m := <["token_type" := tr_token_type r]> ∅ in
  let m := <["access_token" := tr_access_token r]> m in
  let m := <["expires_in" := itoa (tr_expires_in r)]> m in
  let m := put "refresh_token" (tr_refresh_token r) m in
  let m := match tr_scope r with
           | Some _ => <["scope" := scope_string (tr_scope r)]> m
           | None => m
           end in
  put "state" (tr_state r) m.

(** The JSON document of a [TokenResponse] (struct tags token.go:108-115). *)
Definition token_json (r : token_response) : json :=
  JObj ([("token_type", JStr (tr_token_type r));
         ("access_token", JStr (tr_access_token r));
         ("expires_in", JNum (itoa (tr_expires_in r)))]
        ++ omit_string "refresh_token" (tr_refresh_token r)
        ++ omit_scope "scope" (tr_scope r)
        ++ omit_string "state" (tr_state r)).

(** token.go:172-179 [WriteTokenResponse]. *)
Definition write_token_response (w : rw) (r : token_response) : option (rw * bool) :=
  if negb (seqb (tr_redirect_uri r) "")
  then write_redirect w (tr_redirect_uri r) (token_map r) true
  else write w (token_json r) 200.

(** [if v != "" { values[k] = []string{x} }]. *)
Definition vput (k v x : string) (m : values) : values :=
  if seqb v "" then m else <[k := [x]]> m.

(** token.go:182-233 [TokenRequestValues]. *)
Definition token_request_values (r : token_request) : values :=
  let m := vput "grant_type" (tq_grant_type r) (tq_grant_type r) ∅ in
  let m := if Nat.eqb (length (items (tq_scope r))) 0 then m
           else <["scope" := [scope_string (tq_scope r)]]> m in
  let m := vput "username" (tq_username r) (tq_username r) m in
  let m := vput "password" (tq_password r) (tq_password r) m in
  let m := vput "refresh_token" (tq_refresh_token r) (tq_refresh_token r) m in
  let m := vput "redirect_uri" (tq_redirect_uri r) (query_escape (tq_redirect_uri r)) m in
  vput "code" (tq_code r) (tq_code r) m.

(** http.NewRequest("POST", uri, body) followed by the optional SetBasicAuth
    and the Content-Type header, as in all three Build functions; [None] if
    the URI does not parse. The request is what the server receives. *)
Definition build_post (uri : string) (vals : values) (client_id client_secret : string)
  : option request :=
  match url_parse uri with
  | None => None
  | Some u =>
      Some {| rq_method := "POST"; rq_path := u_path u; rq_query := u_rawquery u;
              rq_auth := if negb (seqb client_id "") || negb (seqb client_secret "")
                         then basic_auth_header client_id client_secret else "";
              rq_ctype := form_ctype;
              rq_body := Some (encode_values vals, true);
              rq_preset := None |}
  end.

(** token.go:236-255 [BuildTokenRequest]. *)
Definition build_token_request (uri : string) (r : token_request) : option request :=
  build_post uri (token_request_values r) (tq_client_id r) (tq_client_secret r).

(** json.Unmarshal into a [TokenResponse]. *)
Definition token_of_json (j : json) : option token_response :=
  match j with
  | JNull => Some (new_token_response "" "" 0)
  | JObj o =>
      match decode_field store_string "" "token_type" o,
            decode_field store_string "" "access_token" o,
            decode_field store_int 0%Z "expires_in" o,
            decode_field store_string "" "refresh_token" o,
            decode_field store_scope None "scope" o,
            decode_field store_string "" "state" o with
      | Some ty, Some at_, Some ex, Some rt, Some sc, Some st =>
          Some {| tr_token_type := ty; tr_access_token := at_; tr_expires_in := ex;
                  tr_refresh_token := rt; tr_scope := sc; tr_state := st;
                  tr_redirect_uri := "" |}
      | _, _, _, _, _, _ => None
      end
  | _ => None
  end.

(** The checks shared by [ParseTokenResponse] and [ParseIntrospectionResponse]:
    token.go:260-274, introspection.go:150-164. *)
Definition read_json_body (rs : response) (limit : Z) : option string :=
  let '(data, ok) := read_limited rs limit in
  if negb ok then None
  else let '(ct, ok') := parse_media_type (rs_ctype rs) in
       if negb ok' then None
       else if negb (seqb ct "application/json") then None
       else Some data.

(** token.go:258-284 [ParseTokenResponse]; [None] is an error. *)
Definition parse_token_response (rs : response) (limit : Z) : option token_response :=
  match read_json_body rs limit with
  | None => None
  | Some data => match json_parse data with
                 | Some j => token_of_json j
                 | None => None
                 end
  end.

(** code.go:9-14 [CodeResponse]. *)
Record code_response := {
  cr_code : string;
  cr_state : string;
  cr_redirect_uri : string
}.

(** code.go:17-23 [NewCodeResponse]. *)
Definition new_code_response (code redirect_uri state : string) : code_response :=
  {| cr_code := code; cr_state := state; cr_redirect_uri := redirect_uri |}.

(** code.go:28-40 [Map]. *)
Definition code_map (r : code_response) : gmap string string :=
  put "state" (cr_state r) (<["code" := cr_code r]> ∅).

(** code.go:44-46 [WriteCodeResponse]. *)
Definition write_code_response (w : rw) (r : code_response) : option (rw * bool) :=
  write_redirect w (cr_redirect_uri r) (code_map r) false.
