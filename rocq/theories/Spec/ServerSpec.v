(** Vocabulary for the properties of the server. *)
From Verif.Model Require Import Server.
From Verif.Spec Require Import TokenSpec ScopeSpec WireSpec RequestSpec.

(** ** Tokens *)

(** The string [str] is a token authentic under [secret] (see C02); [sg] is the
    text of its signature, by which the server knows it. *)
Definition names (secret str sg : string) : Prop :=
  exists s0 s1 key, two_segments str s0 s1 /\ b64url_denotes s0 key /\
    b64url_denotes s1 (hmac_sha256 secret key) /\ b64url_canonical sg (hmac_sha256 secret key).

Definition server_secret (s : server) : string := cfg_secret (sv_config s).

(** What the server stores for a token string. *)
Definition access_token (s : server) (str : string) (c : credential) : Prop :=
  exists sg, names (server_secret s) str sg /\ sv_access s !! sg = Some c.
Definition refresh_token (s : server) (str : string) (c : credential) : Prop :=
  exists sg, names (server_secret s) str sg /\ sv_refresh s !! sg = Some c.
Definition auth_code (s : server) (str : string) (c : credential) : Prop :=
  exists sg, names (server_secret s) str sg /\ sv_codes s !! sg = Some c.

(** The scope [granted] covers [required]. *)
Definition covers (granted required : scope) : Prop := incl (items required) (items granted).

(** ** Requests *)

Definition endpoint (r : request) (name : string) : Prop :=
  (exists p, rq_path r = p +:+ "/" +:+ name) \/ rq_path r = name.
Definition other_path (r : request) : Prop :=
  forall name, In name ["authorize"; "token"; "introspect"; "revoke"] -> ~ endpoint r name.

(** The bearer token of a request (RFC 6750 section 2.1). *)
Definition bearer (r : request) (str : string) : Prop :=
  exists scheme, rq_auth r = scheme +:+ " " +:+ str /\ same_ignoring_case scheme "bearer" /\ str <> "".

(** Client id and secret: those of the Basic header, else those of the body. *)
Definition client_credentials (r : request) : string * string :=
  match basic_auth r with
  | Some c => c
  | None => (body_param r "client_id", body_param r "client_secret")
  end.
(** The client a request names. *)
Definition acts_for (r : request) (id : string) : Prop :=
  (endpoint r "authorize" /\ id = form_param r "client_id") \/
  (~ endpoint r "authorize" /\ id = fst (client_credentials r)).

(** The client is known and, if it is confidential, the secret is its own. *)
Definition authenticates (s : server) (id secret : string) : Prop :=
  exists c, sv_clients s !! id = Some c /\ (en_confidential c = true -> en_secret c = secret).
(** The password is the one of the user. *)
Definition password_of (s : server) (user password : string) : Prop :=
  exists u, sv_users s !! user = Some u /\ en_secret u = password.

(** ** Challenges of the resource server *)
Definition quoted (s : string) : string := String dq_char (s +:+ String dq_char "").
Definition challenge (w : rw) (code : Z) (params : string) : Prop :=
  status w = code /\ rw_body w = "" /\ header_values w "Www-Authenticate" = ["Bearer " +:+ params].

(** ** What a request may do to the tokens *)

(** What an answer hands out. *)
Definition hands_out_access (secret : string) (o : outcome) (sg : string) : Prop :=
  exists t, o = OToken t /\ names secret (tr_access_token t) sg.
Definition hands_out_refresh (secret : string) (o : outcome) (sg : string) : Prop :=
  exists t, o = OToken t /\ names secret (tr_refresh_token t) sg.
Definition hands_out_code (secret : string) (o : outcome) (sg : string) : Prop :=
  exists c, o = OCode c /\ names secret (cr_code c) sg.

(** The credentials left after removing those issued for the code [sg]. *)
Definition without_code (sg : string) (m m' : gmap string credential) : Prop :=
  forall k c, m' !! k = Some c <-> m !! k = Some c /\ cd_code c <> sg.

(** Configuration, clients and users are the same. *)
Definition same_registry (s s' : server) : Prop :=
  sv_config s' = sv_config s /\ sv_clients s' = sv_clients s /\ sv_users s' = sv_users s.

(** A token request presenting a code that was already redeemed. *)
Definition replays (s : server) (r : request) (sg : string) : Prop :=
  endpoint r "token" /\ body_param r "grant_type" = "authorization_code" /\
  names (server_secret s) (body_param r "code") sg /\
  exists d, sv_codes s !! sg = Some d /\ cd_used d = true.

(** The same request with a random source that fails earlier. *)
Definition less_random (ev ev' : env) : Prop :=
  ev_now_check ev' = ev_now_check ev /\ ev_now_access ev' = ev_now_access ev /\
  ev_now_refresh ev' = ev_now_refresh ev /\ ev_now_code ev' = ev_now_code ev /\
  exists rest, ev_rand ev = ev_rand ev' +:+ rest.

(** ** Requests that get as far as the client check *)
Definition grant_types : list string := ["password"; "client_credentials"; "authorization_code"; "refresh_token"].
Definition complete_token_request (r : request) : Prop :=
  endpoint r "token" /\ (exists q, parse_token_request r = inl q) /\ In (body_param r "grant_type") grant_types.
Definition complete_lookup_request (r : request) : Prop :=
  (exists q, parse_introspection_request r = inl q) /\
  In (body_param r "token_type_hint") [""; "access_token"; "refresh_token"].
Definition complete_introspection (r : request) : Prop := endpoint r "introspect" /\ complete_lookup_request r.
Definition complete_revocation (r : request) : Prop := endpoint r "revoke" /\ complete_lookup_request r.
(** The client of the request, checked. *)
Definition from_client (s : server) (r : request) (id : string) : Prop :=
  exists secret, client_credentials r = (id, secret) /\ authenticates s id secret.
Definition unauthenticated (s : server) (r : request) : Prop := forall id, ~ from_client s r id.

(** Same request with another path. *)
Definition with_path (r : request) (p : string) : request :=
  {| rq_method := rq_method r; rq_path := p; rq_query := rq_query r; rq_auth := rq_auth r;
     rq_ctype := rq_ctype r; rq_body := rq_body r; rq_preset := rq_preset r |}.

(** A code after its redemption. *)
Definition as_used (d : credential) : credential :=
  {| cd_client_id := cd_client_id d; cd_username := cd_username d; cd_expires_at := cd_expires_at d;
     cd_scope := cd_scope d; cd_redirect_uri := cd_redirect_uri d; cd_code := cd_code d; cd_used := true |}.

(** The random source has enough for [n] keys. *)
Definition enough_random (ev : env) (s : server) (n : Z) : Prop :=
  (0 <= cfg_key_length (sv_config s))%Z /\
  (n * cfg_key_length (sv_config s) <= Z.of_nat (String.length (ev_rand ev)))%Z.

(** A request to the authorization endpoint that names a known client and its
    redirect URI and asks for something the server has. *)
Definition complete_authorization (s : server) (r : request) : Prop :=
  endpoint r "authorize" /\ (exists q, parse_authorization_request r = inl q) /\
  In (form_param r "response_type") ["token"; "code"] /\
  exists c, sv_clients s !! form_param r "client_id" = Some c /\
    query_unescape (form_param r "redirect_uri") = Some (en_redirect_uri c).

(** ** Introspection answers *)
(** An active token of the given kind with the stored data; the expiry is a
    Unix time in seconds, rounded down. *)
Definition reports (x : introspection_response) (kind : string) (c : credential) : Prop :=
  ir_active x = true /\ ir_token_type x = kind /\ ir_scope x = cd_scope c /\ ir_client_id x = cd_client_id c /\
  ir_username x = cd_username c /\
  (ir_expires_at x * 1000000000 <= cd_expires_at c < (ir_expires_at x + 1) * 1000000000)%Z /\
  ir_issued_at x = 0%Z /\ ir_not_before x = 0%Z /\ ir_subject x = "" /\ ir_audience x = "" /\ ir_issuer x = "" /\ ir_identifier x = "" /\ ir_extra x = None.
Definition reports_nothing (x : introspection_response) : Prop :=
  x = {| ir_active := false; ir_scope := None; ir_client_id := ""; ir_username := ""; ir_token_type := "";
         ir_expires_at := 0; ir_issued_at := 0; ir_not_before := 0; ir_subject := ""; ir_audience := ""; ir_issuer := "";
         ir_identifier := ""; ir_extra := None |}.
