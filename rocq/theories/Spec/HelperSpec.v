(** What the helpers for responses and requests are given and what they send
    (RFC 6749 sections 4.1.2, 4.2.2, 4.3.2, 5.1, 6; RFC 7009 section 2.1; RFC 7662 section 2). *)
From Verif.Model Require Import Oauth2 Token Endpoints Errors.
From Verif.Spec Require Import TokenSpec WireSpec NumberSpec ClientSpec DocumentSpec.

(** A text that is sent only if it is not empty. *)
Definition unless_empty (name x k v : string) : Prop := k = name /\ v = x /\ v <> "".
(** A scope as a text. *)
Definition scope_words (s : scope) : string := join " " (items s).

(** The parameters of a token response in a redirect. A scope that is set but
    empty is sent as an empty text. *)
Definition token_param (r : token_response) (k v : string) : Prop :=
  (k = "token_type" /\ v = tr_token_type r) \/
  (k = "access_token" /\ v = tr_access_token r) \/
  (k = "expires_in" /\ v = itoa (tr_expires_in r)) \/
  unless_empty "refresh_token" (tr_refresh_token r) k v \/
  (k = "scope" /\ tr_scope r <> None /\ v = scope_words (tr_scope r)) \/
  unless_empty "state" (tr_state r) k v.
(** Those of a code response. *)
Definition code_param (r : code_response) (k v : string) : Prop :=
  (k = "code" /\ v = cr_code r) \/ unless_empty "state" (cr_state r) k v.

(** The members of a token response as a document. *)
Definition optional_text (name x k : string) (j : json) : Prop := k = name /\ j = JStr x /\ x <> "".
Definition optional_number (name : string) (z : Z) (k : string) (j : json) : Prop := k = name /\ j = JNum (itoa z) /\ z <> 0%Z.
Definition optional_scope (name : string) (s : scope) (k : string) (j : json) : Prop :=
  k = name /\ j = JStr (scope_words s) /\ items s <> [].
Definition token_member (r : token_response) (k : string) (j : json) : Prop :=
  (k = "token_type" /\ j = JStr (tr_token_type r)) \/
  (k = "access_token" /\ j = JStr (tr_access_token r)) \/
  (k = "expires_in" /\ j = JNum (itoa (tr_expires_in r))) \/
  optional_text "refresh_token" (tr_refresh_token r) k j \/
  optional_scope "scope" (tr_scope r) k j \/
  optional_text "state" (tr_state r) k j.
(** Those of an introspection response. *)
Definition introspection_member (r : introspection_response) (k : string) (j : json) : Prop :=
  (k = "active" /\ j = JBool (ir_active r)) \/
  optional_scope "scope" (ir_scope r) k j \/
  optional_text "client_id" (ir_client_id r) k j \/
  optional_text "username" (ir_username r) k j \/
  optional_text "token_type" (ir_token_type r) k j \/
  optional_number "exp" (ir_expires_at r) k j \/
  optional_number "iat" (ir_issued_at r) k j \/
  optional_number "nbf" (ir_not_before r) k j \/
  optional_text "sub" (ir_subject r) k j \/
  optional_text "aud" (ir_audience r) k j \/
  optional_text "iss" (ir_issuer r) k j \/
  optional_text "jti" (ir_identifier r) k j \/
  (k = "extra" /\ exists l, ir_extra r = Some l /\ l <> [] /\ j = JObj l).

(** A JSON document with these members is written with status 200 and the
    headers of all documents. *)
Definition writes_document (w0 : rw) (res : option (rw * bool)) (member : string -> json -> Prop) : Prop :=
  exists w h o, res = Some (w, true) /\ rw_sent w = Some (200%Z, h) /\
    (forall k l, h !! k = Some l <->
       json_header k l \/ (k <> "Content-Type" /\ k <> "Cache-Control" /\ k <> "Pragma" /\ rw_header w0 !! k = Some l)) /\
    json_parse (rw_body w) = Some (JObj o) /\ NoDup (map fst o) /\ (forall k j, In (k, j) o <-> member k j).

(** The form fields of a token request: the redirect URI is escaped once more. *)
Definition token_field (r : token_request) (k v : string) : Prop :=
  unless_empty "grant_type" (tq_grant_type r) k v \/
  (k = "scope" /\ v = scope_words (tq_scope r) /\ items (tq_scope r) <> []) \/
  unless_empty "username" (tq_username r) k v \/
  unless_empty "password" (tq_password r) k v \/
  unless_empty "refresh_token" (tq_refresh_token r) k v \/
  (k = "redirect_uri" /\ v = query_escape (tq_redirect_uri r) /\ tq_redirect_uri r <> "") \/
  unless_empty "code" (tq_code r) k v.
(** Those of an introspection or revocation request. *)
Definition lookup_field (r : lookup_request) (k v : string) : Prop :=
  unless_empty "token" (lq_token r) k v \/ unless_empty "token_type_hint" (lq_token_type_hint r) k v.
(** A form with these fields, each once. *)
Definition has_fields (v : values) (field : string -> string -> Prop) : Prop :=
  forall k l, v !! k = Some l <-> exists x, l = [x] /\ field k x.

(** A redirect with these parameters. In the query they follow those the URI
    has and are decoded as usual. In the fragment each is encoded once more. *)
Definition location_reads (u : url) (loc : string) (params : gmap string string) (frag : bool) : Prop :=
  exists u', same_target u u' /\
    if frag
    then parse_request_uri (before_fragment loc) = Some u' /\ u_rawquery u' = u_rawquery u /\
         exists v, parse_query (fragment_of loc) = (v, true) /\
           (forall k, values_of v (percent_encoded k) = map percent_encoded (param_values params k)) /\
           (forall k, values_of v k <> [] -> exists j, k = percent_encoded j)
    else parse_request_uri loc = Some u' /\
         form_decodes (u_rawquery u') (fun k => (values_of (url_query u) k ++ param_values params k)%list).
Definition writes_redirect (w0 : rw) (res : option (rw * bool)) (uri : string) (param : string -> string -> Prop)
  (frag : bool) : Prop :=
  forall u, unsent w0 -> rw_header w0 !! "Location" = None ->
    parse_request_uri uri = Some u -> ascii_text uri -> uri <> "*" -> without "#" uri ->
    exists params w h loc, (forall k v, params !! k = Some v <-> param k v) /\
      res = Some (w, true) /\ rw_sent w = Some (303%Z, h) /\ rw_body w = "" /\
      (forall k, h !! k = if decide (k = "Location") then Some [loc]
                          else if decide (k = "Cache-Control") then Some ["no-store"]
                          else if decide (k = "Pragma") then Some ["no-cache"]
                          else if decide (k = "Referrer-Policy") then Some ["origin"]
                          else rw_header w0 !! k) /\
      location_reads u loc params frag.
