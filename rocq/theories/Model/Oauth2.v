(** oauth2.go *)
From Verif.Model Require Export Scope Json Http.

(** oauth2.go:15-20. *)
Definition PasswordGrantType := "password".
(** oauth2.go:17. *)
Definition ClientCredentialsGrantType := "client_credentials".
(** oauth2.go:18. *)
Definition AuthorizationCodeGrantType := "authorization_code".
(** oauth2.go:19. *)
Definition RefreshTokenGrantType := "refresh_token".

(** oauth2.go:24-34 [KnownGrantType]. *)
Definition known_grant_type (str : string) : bool :=
  seqb str PasswordGrantType || seqb str ClientCredentialsGrantType
  || seqb str AuthorizationCodeGrantType || seqb str RefreshTokenGrantType.

(** oauth2.go:37-40. *)
Definition TokenResponseType := "token".
(** oauth2.go:39. *)
Definition CodeResponseType := "code".

(** oauth2.go:44-51 [KnownResponseType]. *)
Definition known_response_type (str : string) : bool :=
  seqb str TokenResponseType || seqb str CodeResponseType.

(** oauth2.go:54-57. *)
Definition AccessToken := "access_token".
(** oauth2.go:56. *)
Definition RefreshToken := "refresh_token".

(** oauth2.go:61-69 [KnownTokenType]. *)
Definition known_token_type (str : string) : bool :=
  seqb str AccessToken || seqb str RefreshToken.

(** oauth2.go:73-86 [Write]; the JSON document of the object is given. The
    result is [None] for a panic, else the writer and whether err = nil. *)
Definition write (w : rw) (obj : json) (status : Z) : option (rw * bool) :=
  let w := header_set w "Content-Type" "application/json;charset=UTF-8" in
  let w := header_set w "Cache-Control" "no-store" in
  let w := header_set w "Pragma" "no-cache" in
  match write_header w status with
  | None => None
  | Some w => write_bytes w (json_encode obj)
  end.

(** The Location computed by [WriteRedirect] (oauth2.go:93-124) when Go
    iterates the parameter map in the given order; [None] if the URI does not
    parse. *)
Definition redirect_location_order (uri : string) (order : list (string * string))
  (use_fragment : bool) : option string :=
  match parse_request_uri uri with
  | None => None
  | Some u =>
      let add v kv := vadd v (fst kv) (snd kv) in
      if use_fragment then
        Some (url_string (set_fragment_field u (encode_values (fold_left add order ∅))))
      else
        Some (url_string (set_rawquery u (encode_values (fold_left add order (url_query u)))))
  end.
(** oauth2.go:93-124, the parameters in some order; the result does not depend on it
    (C12). *)
Definition redirect_location (uri : string) (params : gmap string string)
  (use_fragment : bool) : option string :=
  redirect_location_order uri (map_to_list params) use_fragment.

(** oauth2.go:91-140 [WriteRedirect]. *)
Definition write_redirect (w : rw) (uri : string) (params : gmap string string)
  (use_fragment : bool) : option (rw * bool) :=
  match redirect_location uri params use_fragment with
  | None => Some (w, false)
  | Some loc =>
      let w := header_add w "Location" loc in
      let w := header_set w "Cache-Control" "no-store" in
      let w := header_set w "Pragma" "no-cache" in
      let w := header_set w "Referrer-Policy" "origin" in
      match write_header w 303 with
      | None => None
      | Some w => write_bytes w ""
      end
  end.

(** scope.go:64-67 [Scope.MarshalJSON]; encoding/json compacts the result,
    which changes nothing. *)
Definition scope_json (s : scope) : json := JStr (scope_string s).

(** A struct member with the option omitempty. *)
Definition omit_string (k v : string) : list (string * json) :=
  if seqb v "" then [] else [(k, JStr v)].
(** The same for a [Scope] (token.go:113, error.go:22). *)
Definition omit_scope (k : string) (s : scope) : list (string * json) :=
  if scope_empty s then [] else [(k, scope_json s)].
(** The same for an int or int64. *)
Definition omit_int (k : string) (z : Z) : list (string * json) :=
  if (z =? 0)%Z then [] else [(k, JNum (itoa z))].
(** The same for a map (introspection.go:77). *)
Definition omit_map (k : string) (m : go_map) : list (string * json) :=
  match m with None | Some [] => [] | Some l => [(k, JObj l)] end.

(** scope.go:70-81 [Scope.UnmarshalJSON] on one JSON value: a string, or null,
    which json.Unmarshal stores into a string variable as "no change". *)
Definition store_scope (old : scope) (v : json) : option scope :=
  match v with
  | JStr s => Some (parse_scope s)
  | JNull => Some (parse_scope "")
  | _ => None
  end.

(** scope.go:70-81 [Scope.UnmarshalJSON] called directly with the bytes [buf]. *)
Definition scope_unmarshal (old : scope) (buf : string) : scope * bool :=
  match json_parse buf with
  | None => (old, false)
  | Some v => match store_scope old v with
              | Some s => (s, true)
              | None => (old, false)
              end
  end.
(** scope.go:65-67 called directly. *)
Definition scope_marshal (s : scope) : string := json_render (scope_json s).
