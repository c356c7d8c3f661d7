(** error.go *)
From Verif.Model Require Export Oauth2.

(** error.go:16-28 [Error]. *)
Record error := {
  e_name : string;
  e_state : string;
  e_scope : scope;
  e_realm : string;
  e_description : string;
  e_uri : string;
  e_status : Z;
  e_headers : gmap string string;
  e_redirect_uri : string;
  e_use_fragment : bool
}.

(** A Go [error] value: an oauth2 *Error or anything else. *)
Inductive goerr := GErr (e : error) | GOther.

(** error.go:33-39 [SetRedirect]. *)
Definition set_error_redirect (e : error) (uri state : string) (frag : bool) : error :=
  {| e_name := e_name e; e_state := state; e_scope := e_scope e; e_realm := e_realm e;
     e_description := e_description e; e_uri := e_uri e; e_status := e_status e;
     e_headers := e_headers e; e_redirect_uri := uri; e_use_fragment := frag |}.

(** error.go:42-49 [String], [Error]. *)
Definition error_string (e : error) : string := e_name e +:+ ": " +:+ e_description e.

(** [if v != "" { m[k] = v }]. *)
Definition put (k v : string) (m : gmap string string) : gmap string string :=
  if seqb v "" then m else <[k := v]> m.

(** error.go:54-88 [Map]. *)
Definition error_map (e : error) : gmap string string :=
  let m := put "error" (e_name e) ∅ in
  let m := put "error_description" (e_description e) m in
  let m := put "state" (e_state e) m in
  let m := if Nat.ltb 0 (length (items (e_scope e)))
           then <["scope" := scope_string (e_scope e)]> m else m in
  let m := put "error_uri" (e_uri e) m in
  put "realm" (e_realm e) m.

(** error.go:91-104 [Params] when the map is iterated in the given order. *)
Definition param (kv : string * string) : string :=
  fst kv +:+ "=" +:+ str1 dquote +:+ snd kv +:+ str1 dquote.
(** error.go:91-104 [Params] for a given order of the map: every entry rendered, sorted
    and joined. *)
Definition params_order (order : list (string * string)) : string :=
  join ", " (sort_strings (map param order)).
(** error.go:91-104 [Params]; the order of the map does not matter because of the
    sorting (error.go:101). *)
Definition error_params (e : error) : string := params_order (map_to_list (error_map e)).

(** The common shape of the constructors. *)
Definition mk_error (status : Z) (name description : string) : error :=
  {| e_name := name; e_state := ""; e_scope := None; e_realm := "";
     e_description := description; e_uri := ""; e_status := status; e_headers := ∅;
     e_redirect_uri := ""; e_use_fragment := false |}.

(** error.go:109-115. *)
Definition InvalidRequest (d : string) : error := mk_error 400 "invalid_request" d.
(** error.go:120-129. *)
Definition InvalidClient (d : string) : error :=
  let e := mk_error 401 "invalid_client" d in
  {| e_name := e_name e; e_state := e_state e; e_scope := e_scope e; e_realm := e_realm e;
     e_description := e_description e; e_uri := e_uri e; e_status := e_status e;
     e_headers := {[ "WWW-Authenticate" := "Basic realm=" +:+ str1 dquote +:+ "OAuth2" +:+ str1 dquote ]};
     e_redirect_uri := e_redirect_uri e; e_use_fragment := e_use_fragment e |}.
(** error.go:135-141. *)
Definition InvalidGrant (d : string) : error := mk_error 400 "invalid_grant" d.
(** error.go:145-151. *)
Definition InvalidScope (d : string) : error := mk_error 400 "invalid_scope" d.
(** error.go:156-162. *)
Definition InvalidToken (d : string) : error := mk_error 401 "invalid_token" d.
(** error.go:167-173. *)
Definition UnauthorizedClient (d : string) : error := mk_error 400 "unauthorized_client" d.
(** error.go:177-183. *)
Definition UnsupportedGrantType (d : string) : error := mk_error 400 "unsupported_grant_type" d.
(** error.go:188-194. *)
Definition UnsupportedResponseType (d : string) : error :=
  mk_error 400 "unsupported_response_type" d.
(** error.go:198-204. *)
Definition UnsupportedTokenType (d : string) : error := mk_error 400 "unsupported_token_type" d.
(** error.go:208-212. *)
Definition ProtectedResource : error := mk_error 401 "" "".
(** error.go:216-222. *)
Definition InsufficientScope (s : scope) : error :=
  {| e_name := "insufficient_scope"; e_state := ""; e_scope := s; e_realm := "";
     e_description := ""; e_uri := ""; e_status := 403; e_headers := ∅;
     e_redirect_uri := ""; e_use_fragment := false |}.
(** error.go:226-232. *)
Definition AccessDenied (d : string) : error := mk_error 403 "access_denied" d.
(** error.go:237-243. *)
Definition ServerError (d : string) : error := mk_error 500 "server_error" d.
(** error.go:248-254. *)
Definition TemporarilyUnavailable (d : string) : error := mk_error 503 "temporarily_unavailable" d.

(** The JSON document of an [Error] (struct tags error.go:17-27). *)
Definition error_json (e : error) : json :=
  JObj ([("error", JStr (e_name e))]
        ++ omit_string "state" (e_state e)
        ++ omit_scope "scope" (e_scope e)
        ++ omit_string "realm" (e_realm e)
        ++ omit_string "error_description" (e_description e)
        ++ omit_string "error_uri" (e_uri e)).

(** error.go:260-278 [WriteError] when the header map is iterated in the given
    order. *)
Definition write_error_order (w : rw) (e : error) (order : list (string * string))
  : option (rw * bool) :=
  let w := fold_left (fun w kv => header_set w (fst kv) (snd kv)) order w in
  if negb (seqb (e_redirect_uri e) "") then
    write_redirect w (e_redirect_uri e) (error_map e) (e_use_fragment e)
  else write w (error_json e) (e_status e).
(** error.go:260-278 [WriteError]; anything but an [Error] is written as a plain server
    error. *)
Definition write_error (w : rw) (err : goerr) : option (rw * bool) :=
  let e := match err with GErr e => e | GOther => ServerError "" end in
  write_error_order w e (map_to_list (e_headers e)).

(** json.Unmarshal into an [Error]; the untagged fields keep their zero values. *)
Definition error_of_json (j : json) : option error :=
  match j with
  | JNull => Some (mk_error 0 "" "")
  | JObj o =>
      match decode_field store_string "" "error" o, decode_field store_string "" "state" o,
            decode_field store_scope None "scope" o, decode_field store_string "" "realm" o,
            decode_field store_string "" "error_description" o,
            decode_field store_string "" "error_uri" o with
      | Some n, Some st, Some sc, Some re, Some d, Some u =>
          Some {| e_name := n; e_state := st; e_scope := sc; e_realm := re;
                  e_description := d; e_uri := u; e_status := 0; e_headers := ∅;
                  e_redirect_uri := ""; e_use_fragment := false |}
      | _, _, _, _, _, _ => None
      end
  | _ => None
  end.

(** error.go:289, assignment of the status of a parsed error. *)
Definition set_status (e : error) (st : Z) : error :=
  {| e_name := e_name e; e_state := e_state e; e_scope := e_scope e; e_realm := e_realm e;
     e_description := e_description e; e_uri := e_uri e; e_status := st;
     e_headers := e_headers e; e_redirect_uri := e_redirect_uri e;
     e_use_fragment := e_use_fragment e |}.

(** An http.Response as far as the client functions look at it: status code,
    Content-Type header ("" if absent), and the bytes of the body with whether
    reading ends cleanly. *)
Record response := {
  rs_status : Z;
  rs_ctype : string;
  rs_body : string;
  rs_clean : bool
}.

(** ioutil.ReadAll(io.LimitReader(body, limit)): the data and whether err = nil;
    a limit below the length hides a read error. *)
Fixpoint take_max (n : nat) (s : string) : string :=
  match n, s with
  | O, _ => ""
  | S n', String a r => String a (take_max n' r)
  | S _, "" => ""
  end.
(** error.go:284, token.go:260 and introspection.go:150: ioutil.ReadAll of an
    io.LimitReader. *)
Definition read_limited (rs : response) (limit : Z) : string * bool :=
  let n := Z.to_nat limit in
  if Nat.leb n (slen (rs_body rs)) then (take_max n (rs_body rs), true)
  else (rs_body rs, rs_clean rs).

(** error.go:282-294 [ParseRequestError]. *)
Definition parse_request_error (rs : response) (limit : Z) : goerr :=
  let '(data, _) := read_limited rs limit in
  match json_parse data with
  | Some j => match error_of_json j with
              | Some e => GErr (set_status e (rs_status rs))
              | None => GOther
              end
  | None => GOther
  end.
