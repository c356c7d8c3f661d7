(** Vocabulary for what travels between client and server. *)
From Verif.Model Require Import Server Client.
From Verif.Spec Require Import ScopeSpec WireSpec RequestSpec ServerSpec.
From Verif.Spec Require Export NumberSpec.

(** ** JSON values of any shape (the member "extra") *)

(** A Go value that JSON can carry, with numbers of a kind: texts are valid
    UTF-8, and a map is given by its members in the order of their keys. *)
Definition key_before (a b : string * json) : Prop :=
  str_leb (fst a) (fst b) = true /\ fst a <> fst b.
Inductive go_value (num : string -> Prop) : json -> Prop :=
| go_nil : go_value num JNull
| go_bool b : go_value num (JBool b)
| go_number s : num s -> go_value num (JNum s)
| go_string s : valid_utf8 s -> go_value num (JStr s)
| go_slice l : Forall (go_value num) l -> go_value num (JArr l)
| go_object l : StronglySorted key_before l ->
    Forall (fun kv => valid_utf8 (fst kv) /\ go_value num (snd kv)) l -> go_value num (JObj l).
Definition go_map_value (num : string -> Prop) (m : go_map) : Prop := go_value num (JObj (default [] m)).

(** The literal of a Go integer of at most 53 bits, or of a float64. *)
Definition exact_literal (s : string) : Prop :=
  (exists z, (-2 ^ 53 <= z <= 2 ^ 53)%Z /\ s = itoa z) \/ (exists f, float_ok f /\ s = format_float f).
(** Of at most 9000 bytes. *)
Definition short_literal (s : string) : Prop := json_number s /\ (Z.of_nat (String.length s) <= 9000)%Z.

(** The same value up to the rounding of numbers to float64. *)
Inductive same_value : json -> json -> Prop :=
| same_nil : same_value JNull JNull
| same_bool b : same_value (JBool b) (JBool b)
| same_number s s' f : reads_as s f -> reads_as s' f -> same_value (JNum s) (JNum s')
| same_string s : same_value (JStr s) (JStr s)
| same_slice l l' : Forall2 same_value l l' -> same_value (JArr l) (JArr l')
| same_object l l' : Forall2 (fun a b => fst a = fst b /\ same_value (snd a) (snd b)) l l' ->
    same_value (JObj l) (JObj l').

(** A number in a value, at any depth. *)
Inductive number_in (s : string) : json -> Prop :=
| in_number : number_in s (JNum s)
| in_slice l j : In j l -> number_in s j -> number_in s (JArr l)
| in_object l k j : In (k, j) l -> number_in s j -> number_in s (JObj l).

(** How deep arrays and objects are nested. *)
Fixpoint nesting (j : json) : N :=
  match j with
  | JArr l => 1 + fold_right (fun x m => N.max (nesting x) m) 0 l
  | JObj l => 1 + fold_right (fun kv m => N.max (nesting (snd kv)) m) 0 l
  | _ => 0
  end%N.

(** ** Documents *)

(** A scope that has a textual form (C08) and is valid UTF-8. *)
Definition scope_text (s : scope) : Prop := Forall good_item (items s) /\ Forall valid_utf8 (items s).

Definition token_texts (r : token_response) : Prop :=
  valid_utf8 (tr_token_type r) /\ valid_utf8 (tr_access_token r) /\ int64 (tr_expires_in r) /\
  valid_utf8 (tr_refresh_token r) /\ scope_text (tr_scope r) /\ valid_utf8 (tr_state r).

(** The same response for the client; the redirect URI is no part of it. *)
Definition same_token (r r' : token_response) : Prop :=
  tr_token_type r' = tr_token_type r /\ tr_access_token r' = tr_access_token r /\
  tr_expires_in r' = tr_expires_in r /\ tr_refresh_token r' = tr_refresh_token r /\
  items (tr_scope r') = items (tr_scope r) /\ tr_state r' = tr_state r /\ tr_redirect_uri r' = "".

(** The numbers in the extra members are of the kind [num]. *)
Definition introspection_texts_with (num : string -> Prop) (r : introspection_response) : Prop :=
  scope_text (ir_scope r) /\ valid_utf8 (ir_client_id r) /\ valid_utf8 (ir_username r) /\
  valid_utf8 (ir_token_type r) /\ int64 (ir_expires_at r) /\ int64 (ir_issued_at r) /\
  int64 (ir_not_before r) /\ valid_utf8 (ir_subject r) /\ valid_utf8 (ir_audience r) /\
  valid_utf8 (ir_issuer r) /\ valid_utf8 (ir_identifier r) /\ go_map_value num (ir_extra r) /\
  (nesting (JObj (default [] (ir_extra r))) < 10000)%N.
Definition introspection_texts : introspection_response -> Prop := introspection_texts_with float_literal.

Definition same_introspection (r r' : introspection_response) : Prop :=
  ir_active r' = ir_active r /\ items (ir_scope r') = items (ir_scope r) /\
  ir_client_id r' = ir_client_id r /\ ir_username r' = ir_username r /\
  ir_token_type r' = ir_token_type r /\ ir_expires_at r' = ir_expires_at r /\
  ir_issued_at r' = ir_issued_at r /\ ir_not_before r' = ir_not_before r /\
  ir_subject r' = ir_subject r /\ ir_audience r' = ir_audience r /\ ir_issuer r' = ir_issuer r /\
  ir_identifier r' = ir_identifier r /\
  same_value (JObj (default [] (ir_extra r))) (JObj (default [] (ir_extra r'))).

Definition error_texts (e : error) : Prop :=
  error_fields_utf8 e /\ Forall good_item (items (e_scope e)).

(** The same error for the client; headers and redirection are no part of it. *)
Definition same_error (e e' : error) : Prop :=
  e_name e' = e_name e /\ e_description e' = e_description e /\ e_status e' = e_status e /\
  items (e_scope e') = items (e_scope e) /\ e_state e' = e_state e /\ e_realm e' = e_realm e /\
  e_uri e' = e_uri e.

(** The client reads at most [limit] bytes of a body. *)
Definition fits (w : rw) (limit : Z) : Prop := (Z.of_nat (String.length (rw_body w)) <= limit)%Z.
(** A limit that cuts off more than the newline at the end of a document. *)
Definition cuts (w : rw) (limit : Z) : Prop := (limit + 1 < Z.of_nat (String.length (rw_body w)))%Z.

(** ** Calls of a client *)

(** The URI leads to the endpoint of this name, and its query is well formed. *)
Definition leads_to (uri name : string) : Prop :=
  exists u p, url_parse uri = Some u /\ u_path u = p +:+ "/" +:+ name /\ well_formed_query (u_rawquery u).

(** What a token or lookup request can carry to the server (C22, C23). *)
Definition expressible_token (q : token_request) : Prop :=
  tq_grant_type q <> "" /\ tq_client_id q <> "" /\ without ":" (tq_client_id q) /\
  Forall good_item (items (tq_scope q)) /\
  (tq_redirect_uri q = "" \/ is_Some (parse_request_uri (tq_redirect_uri q))).
Definition expressible_lookup (q : lookup_request) : Prop :=
  lq_token q <> "" /\ lq_client_id q <> "" /\ without ":" (lq_client_id q) /\
  In (lq_token_type_hint q) [""; "access_token"; "refresh_token"].

(** The server's answer to this request fits the limit of the client. *)
Definition answer_fits (ev : env) (s : server) (c : client_config) (r : request) : Prop :=
  forall s' w, serve_http ev s r new_rw = (s', Some w) -> fits w (cc_response_limit c).

(** The client is set up for the server, the request can be expressed, and
    neither the request nor the answer is too long. *)
Definition token_call (ev : env) (s : server) (c : client_config) (q : token_request) (r : request) : Prop :=
  build_token_request (cc_base_uri c +:+ cc_token_endpoint c) q = Some r /\
  leads_to (cc_base_uri c +:+ cc_token_endpoint c) "token" /\ expressible_token q /\
  fits_form_limit r /\ answer_fits ev s c r.
Definition introspection_call (ev : env) (s : server) (c : client_config) (q : lookup_request) (r : request) : Prop :=
  build_introspection_request (cc_base_uri c +:+ cc_introspection_endpoint c) q = Some r /\
  leads_to (cc_base_uri c +:+ cc_introspection_endpoint c) "introspect" /\ expressible_lookup q /\
  fits_form_limit r /\ answer_fits ev s c r.
Definition revocation_call (ev : env) (s : server) (c : client_config) (q : lookup_request) (r : request) : Prop :=
  build_revocation_request (cc_base_uri c +:+ cc_revocation_endpoint c) q = Some r /\
  leads_to (cc_base_uri c +:+ cc_revocation_endpoint c) "revoke" /\ expressible_lookup q /\
  fits_form_limit r /\ answer_fits ev s c r.

(** The configuration has well-formed scope items, and the lifespan is one
    that Go can represent. *)
Definition config_texts (cfg : server_config) : Prop :=
  scope_text (cfg_allowed_scope cfg) /\ int64 (cfg_access_lifespan cfg).
(** Names and expiry times that JSON can carry. *)
Definition credential_texts (s : server) : Prop :=
  forall k c, sv_access s !! k = Some c \/ sv_refresh s !! k = Some c ->
    valid_utf8 (cd_client_id c) /\ valid_utf8 (cd_username c) /\
    int64 (cd_expires_at c / 1000000000).
