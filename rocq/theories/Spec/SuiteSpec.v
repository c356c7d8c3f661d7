(** What it means that the server is the one a test specification describes. *)
From Verif.Model Require Import Suite.
From Verif.Spec Require Import ScopeSpec WireSpec RequestSpec ServerSpec NumberSpec.

(** ** The server and the requests of the tests *)

(** The path in the specification reaches the endpoint of that name. *)
Definition leads_to (resource : string -> bool) (path name : string) : Prop :=
  exists u, url_parse path = Some u /\ u_rawquery u = "" /\ resource (u_path u) = false /\
    ((exists p, u_path u = p +:+ "/" +:+ name) \/ u_path u = name).

(** The settings [Run] insists on. *)
Definition complete_spec (sp : spec) : Prop :=
  Forall (fun x => x <> "")
    [sp_token sp; sp_authorize sp; sp_resource sp; sp_client sp; sp_secret sp; sp_public sp;
     sp_invalid_scope sp; sp_valid_scope sp; sp_exceeding_scope sp; sp_invalid_token sp;
     sp_valid_token sp; sp_unknown_token sp; sp_expired_token sp] /\
  (sp_implicit_grant sp = true \/ sp_code_grant sp = true ->
     Forall (fun x => x <> "")
       [sp_invalid_redirect sp; sp_primary_redirect sp; sp_secondary_redirect sp] /\
     (sp_invalid_params sp <> None \/ sp_invalid_headers sp <> None) /\
     (sp_valid_params sp <> None \/ sp_valid_headers sp <> None)) /\
  (sp_password_grant sp = true -> sp_owner sp <> "" /\ sp_owner_password sp <> "") /\
  (sp_code_grant sp = true ->
     sp_invalid_code sp <> "" /\ sp_unknown_code sp <> "" /\ sp_expired_code sp <> "") /\
  (sp_refresh_grant sp = true ->
     sp_invalid_refresh sp <> "" /\ sp_unknown_refresh sp <> "" /\ sp_valid_refresh sp <> "" /\
     sp_expired_refresh sp <> "").

(** ** The clients, users and scopes *)

(** The confidential client, with the redirect URI [uri], and the public one. *)
Definition clients_described (sp : spec) (s : server) (uri : string) : Prop :=
  (exists c, sv_clients s !! sp_client sp = Some c /\ en_confidential c = true /\
     en_secret c = sp_secret sp /\ en_redirect_uri c = uri) /\
  sp_secret sp <> "invalid" /\ without ":" (sp_client sp) /\ valid_utf8 (sp_client sp) /\
  (exists c, sv_clients s !! sp_public sp = Some c /\ en_confidential c = false) /\
  without ":" (sp_public sp) /\
  sv_clients s !! "unknown" = None /\ sv_clients s !! "invalid" = None.

(** The scope of the specification is the list [l] in the usual form; the other
    two are too much. *)
Definition scopes_described (sp : spec) (s : server) (required : scope) (l : list string) : Prop :=
  let allowed := cfg_allowed_scope (sv_config s) in
  sp_valid_scope sp = join " " l /\ l <> [] /\ Forall good_item l /\ Forall valid_utf8 l /\
  incl l (items allowed) /\ incl (items required) l /\
  ~ covers allowed (parse_scope (sp_invalid_scope sp)) /\
  ~ covers allowed (parse_scope (sp_exceeding_scope sp)).

(** An approval parameter of the specification. *)
Definition setting (m : option (gmap string string)) (k : string) : string :=
  default "" (default ∅ m !! k).

Definition users_described (sp : spec) (s : server) : Prop :=
  (sp_password_grant sp = true ->
     password_of s (sp_owner sp) (sp_owner_password sp) /\ valid_utf8 (sp_owner sp) /\
     ~ password_of s "invalid" (sp_owner_password sp) /\ ~ password_of s (sp_owner sp) "invalid") /\
  (sp_implicit_grant sp = true \/ sp_code_grant sp = true ->
     password_of s (setting (sp_valid_params sp) "username") (setting (sp_valid_params sp) "password") /\
     valid_utf8 (setting (sp_valid_params sp) "username") /\
     ~ password_of s (setting (sp_invalid_params sp) "username") (setting (sp_invalid_params sp) "password") /\
     ~ password_of s "" "").

(** The redirect URIs: the first is [uri] once decoded, an absolute URI whose query
    has none of the parameters the tests look for. *)
Definition redirects_described (sp : spec) (uri : string) : Prop :=
  sp_implicit_grant sp = true \/ sp_code_grant sp = true ->
  query_unescape (sp_primary_redirect sp) = Some uri /\
  (exists u, parse_request_uri uri = Some u /\ u_scheme u <> "" /\
     forall k, In k ["error"; "state"; "code"] -> values_of (url_query u) k = []) /\
  ascii_text uri /\ without "#" uri /\
  query_unescape (sp_invalid_redirect sp) <> Some uri /\
  exists other, query_unescape (sp_secondary_redirect sp) = Some other /\ other <> uri /\
    is_Some (parse_request_uri other).

(** ** The stored tokens; the tests run between [t0] and [t1] *)

Definition not_a_token (s : server) (str : string) : Prop :=
  forall sg, ~ names (server_secret s) str sg.
(** A real token the server has not stored in the given places. *)
Definition not_stored (s : server) (str : string) (maps : list (gmap string credential)) : Prop :=
  exists sg, names (server_secret s) str sg /\ Forall (fun m => m !! sg = None) maps.
(** Texts that JSON can carry, and a time whose seconds Go can represent. *)
Definition readable (c : credential) : Prop :=
  valid_utf8 (cd_username c) /\ Forall valid_utf8 (items (cd_scope c)) /\
  int64 (cd_expires_at c / 1000000000).

Definition tokens_described (sp : spec) (s : server) (required : scope) (t0 t1 : Z) : Prop :=
  not_a_token s (sp_invalid_token sp) /\
  not_stored s (sp_unknown_token sp) [sv_access s; sv_refresh s] /\
  (exists sg c, names (server_secret s) (sp_valid_token sp) sg /\ sv_access s !! sg = Some c /\
     sv_refresh s !! sg = None /\ cd_client_id c = sp_client sp /\ (t1 <= cd_expires_at c)%Z /\
     covers (cd_scope c) required /\ cd_code c = "" /\ readable c) /\
  (exists c, access_token s (sp_expired_token sp) c /\ (cd_expires_at c < t0)%Z) /\
  (exists c, access_token s (sp_insufficient_token sp) c /\ (t1 <= cd_expires_at c)%Z /\
     ~ covers (cd_scope c) required).

Definition refresh_described (sp : spec) (s : server) (l : list string) (t0 t1 : Z) : Prop :=
  sp_refresh_grant sp = true ->
  not_a_token s (sp_invalid_refresh sp) /\
  not_stored s (sp_unknown_refresh sp) [sv_refresh s] /\
  (exists sg c, names (server_secret s) (sp_valid_refresh sp) sg /\ sv_refresh s !! sg = Some c /\
     sv_access s !! sg = None /\ cd_client_id c = sp_client sp /\ (t1 <= cd_expires_at c)%Z /\
     items (cd_scope c) = l /\ cd_code c = "" /\ readable c) /\
  (exists c, refresh_token s (sp_expired_refresh sp) c /\ (cd_expires_at c < t0)%Z /\
     cd_code c = "").

Definition codes_described (sp : spec) (s : server) (t0 : Z) : Prop :=
  sp_code_grant sp = true ->
  not_a_token s (sp_invalid_code sp) /\
  not_stored s (sp_unknown_code sp) [sv_codes s] /\
  (exists c, auth_code s (sp_expired_code sp) c /\ cd_used c = false /\ (cd_expires_at c < t0)%Z).

(** ** All together *)
Definition described (resource : string -> bool) (required : scope) (sp : spec) (s : server)
  (t0 t1 : Z) : Prop :=
  exists uri l,
  complete_spec sp /\
  leads_to resource (sp_token sp) "token" /\ leads_to resource (sp_authorize sp) "authorize" /\
  (sp_introspection sp = "" \/ leads_to resource (sp_introspection sp) "introspect") /\
  (sp_revocation sp = "" \/ leads_to resource (sp_revocation sp) "revoke") /\
  (exists u, url_parse (sp_resource sp) = Some u /\ resource (u_path u) = true) /\
  clients_described sp s uri /\ scopes_described sp s required l /\ users_described sp s /\
  redirects_described sp uri /\ tokens_described sp s required t0 t1 /\
  refresh_described sp s l t0 t1 /\ codes_described sp s t0 /\
  int64 (cfg_access_lifespan (sv_config s)) /\
  sp_expires_in sp = Z.quot (cfg_access_lifespan (sv_config s)) 1000000000.

(** ** The environment of the run *)

(** The signatures of the two tokens a request can make. *)
Definition draws (s : server) (ev : env) : list string :=
  match cfg_must_generate (sv_config s) (ev_rand ev) with
  | None => []
  | Some (a, rest) =>
      signature_string a ::
      match cfg_must_generate (sv_config s) rest with
      | None => []
      | Some (b, _) => [signature_string b]
      end
  end.

(** All clocks are in the time of the test, which is shorter than the lifespans;
    the seconds of the times in it are ones that Go can represent. *)
Definition in_time (s : server) (t0 t1 : Z) (ev : env) : Prop :=
  let within t := (t0 <= t <= t1)%Z in
  within (ev_now_check ev) /\ within (ev_now_access ev) /\ within (ev_now_refresh ev) /\
  within (ev_now_code ev) /\
  (t1 <= t0 + cfg_access_lifespan (sv_config s))%Z /\
  (t1 <= t0 + cfg_refresh_lifespan (sv_config s))%Z /\
  (t1 <= t0 + cfg_code_lifespan (sv_config s))%Z /\
  int64 (t0 / 1000000000) /\
  int64 ((t1 + cfg_access_lifespan (sv_config s)) / 1000000000) /\
  int64 ((t1 + cfg_refresh_lifespan (sv_config s)) / 1000000000).

(** The random source has enough for two tokens in every request and never leads
    to a signature that was there before. *)
Definition fresh_randomness (sp : spec) (s : server) (evs : list env) : Prop :=
  Forall (fun ev => enough_random ev s 2) evs /\
  NoDup (flat_map (draws s) evs) /\
  forall sg, In sg (flat_map (draws s) evs) ->
    sv_access s !! sg = None /\ sv_refresh s !! sg = None /\ sv_codes s !! sg = None /\
    forall str, In str [sp_unknown_token sp; sp_unknown_refresh sp; sp_unknown_code sp] ->
      ~ names (server_secret s) str sg.

(** The requests of a run, at most. *)
Definition most_requests (sp : spec) : nat :=
  let pw := sp_password_grant sp in let cc := sp_client_credentials_grant sp in
  let im := sp_implicit_grant sp in let co := sp_code_grant sp in let re := sp_refresh_grant sp in
  let count (b : bool) n := if b then n else 0%nat in
  6 + (count (pw || cc || co || re) 3 + (count (im || co) 5 + (count pw 23 + (count cc 22 +
  (count im 10 + (count co 34 + (count re 18 +
  (count (negb (seqb (sp_introspection sp) "")) 11 + count (negb (seqb (sp_revocation sp) "")) 14)))))))).

(** ** The verdict *)
Definition no_failure (r : report) : Prop :=
  Forall (fun b => b = true) (rp_checks r) /\ rp_ending r <> Panicked.
Definition passed (r : report) : Prop :=
  Forall (fun b => b = true) (rp_checks r) /\ rp_ending r = Completed.

(** ** What a run has exchanged *)

(** The requests of a run and their responses, in order. *)
Fixpoint exchanges {S} (h : handler S) (evs : list env) (s : S) (p : suite)
  : list (test_request * rw) :=
  match p with
  | Finish | Crash => []
  | Check _ rest => exchanges h evs s rest
  | Send q k =>
      match do_request q, evs with
      | Some r, ev :: evs' =>
          match h ev s r with
          | (s', Some w) => (q, w) :: exchanges h evs' s' (k w)
          | (_, None) => []
          end
      | _, _ => []
      end
  end.

(** The wanted exchanges are among those made, in that order. *)
Inductive seen : list (test_request * (rw -> Prop)) -> list (test_request * rw) -> Prop :=
| seen_all made : seen [] made
| seen_here q (want : rw -> Prop) w wanted made :
    want w -> seen wanted made -> seen ((q, want) :: wanted) ((q, w) :: made)
| seen_later wanted e made : seen wanted made -> seen wanted (e :: made).

(** Kinds of responses. *)
Definition answers (code : Z) (w : rw) : Prop := rec_code w = code.
Definition complains (code : Z) (name : string) (w : rw) : Prop :=
  rec_code w = code /\ json_field_string w "error" = name.
Definition challenges (code : Z) (name : string) (w : rw) : Prop :=
  rec_code w = code /\ auth_param w "error" = Some name /\ rw_body w = "".
(** The same with a realm that is not empty. *)
Definition turns_away (w : rw) : Prop :=
  complains 401 "invalid_client" w /\ exists realm, auth_param w "realm" = Some realm /\ realm <> "".
(** A pair of tokens with the type, the scope and the lifetime that are specified. *)
Definition hands_out (sp : spec) (access refresh : string) (w : rw) : Prop :=
  rec_code w = 200%Z /\ json_field_string w "access_token" = access /\ access <> "" /\
  json_field_string w "refresh_token" = refresh /\ refresh <> "" /\
  json_field_string w "token_type" = "bearer" /\
  json_field_string w "scope" = sp_valid_scope sp /\
  json_field_is w "expires_in" (sp_expires_in sp) = true.
(** Introspection says that the token is alive, and of that kind, or that it is not. *)
Definition reports_alive (kind : string) (w : rw) : Prop :=
  rec_code w = 200%Z /\ json_field_bool w "active" = true /\ json_field_string w "token_type" = kind.
Definition reports_dead (w : rw) : Prop :=
  rec_code w = 200%Z /\ json_field_bool w "active" = false.

(** Kinds of requests. *)
Definition asks_resource (sp : spec) (header : gmap string string) : test_request :=
  {| sr_method := "GET"; sr_path := sp_resource sp; sr_header := header; sr_form := ∅;
     sr_username := ""; sr_password := "" |}.
Definition with_token (sp : spec) (token : string) : test_request :=
  asks_resource sp {[ "Authorization" := "Bearer " +:+ token ]}.
Definition posts_as (user password path : string) (form : gmap string string) : test_request :=
  {| sr_method := "POST"; sr_path := path; sr_header := ∅; sr_form := form;
     sr_username := user; sr_password := password |}.
Definition client_posts (sp : spec) (path : string) (form : gmap string string) : test_request :=
  posts_as (sp_client sp) (sp_secret sp) path form.
Definition revokes_token (sp : spec) (token kind : string) : test_request :=
  client_posts sp (sp_revocation sp) {[ "token" := token; "token_type_hint" := kind ]}.
(** One introspection, if the specification names the endpoint. *)
Definition introspected (sp : spec) (token kind : string) (want : rw -> Prop)
  : list (test_request * (rw -> Prop)) :=
  if seqb (sp_introspection sp) "" then []
  else [(client_posts sp (sp_introspection sp) {[ "token" := token; "token_type_hint" := kind ]}, want)].
Definition refreshes_with (token : string) : gmap string string :=
  {[ "grant_type" := "refresh_token"; "refresh_token" := token ]}.
Definition redeems (sp : spec) (code redirect : string) : gmap string string :=
  {[ "grant_type" := "authorization_code"; "scope" := sp_valid_scope sp; "code" := code;
     "redirect_uri" := redirect ]}.
Definition logs_in (user password scope : string) : gmap string string :=
  {[ "grant_type" := "password"; "username" := user; "password" := password; "scope" := scope ]}.
Definition asks_for_itself (scope : string) : gmap string string :=
  {[ "grant_type" := "client_credentials"; "scope" := scope ]}.

(** A decision at the authorization endpoint; [extra] and [hdrs] authenticate the
    user. *)
Definition decides (sp : spec) (extra hdrs : option (gmap string string)) (kind scope : string)
  : test_request :=
  {| sr_method := "POST"; sr_path := sp_authorize sp; sr_header := default ∅ hdrs;
     sr_form :=
       {[ "scope" := scope; "state" := "xyz"; "response_type" := kind;
          "client_id" := sp_client sp; "redirect_uri" := sp_primary_redirect sp ]}
       ∪ default ∅ extra;
     sr_username := ""; sr_password := "" |}.
(** The user is sent back with an error, a code or a token. *)
Definition sends_back (read : rw -> string -> option string) (key value : string) (w : rw) : Prop :=
  rec_code w = 303%Z /\ read w key = Some value /\ value <> "" /\ read w "state" = Some "xyz".

(** The life of an access token: accepted, and refused once it was revoked. *)
Definition access_life (sp : spec) (token : string) : list (test_request * (rw -> Prop)) :=
  (with_token sp token, answers 200) ::
  introspected sp token "access_token" (reports_alive "access_token") ++
  if seqb (sp_revocation sp) "" then []
  else [(revokes_token sp token "access_token", answers 200);
        (with_token sp token,
          fun w => rec_code w = 401%Z /\ auth_param w "error" = Some "invalid_token")] ++
       introspected sp token "access_token" reports_dead.
(** The life of a refresh token: it can be used once, and the new one not after it
    was revoked. *)
Definition refresh_life (sp : spec) (token access new : string)
  : list (test_request * (rw -> Prop)) :=
  introspected sp token "refresh_token" (reports_alive "refresh_token") ++
  [(client_posts sp (sp_token sp) (refreshes_with token), hands_out sp access new)] ++
  access_life sp access ++
  [(client_posts sp (sp_token sp) (refreshes_with token), complains 400 "invalid_grant")] ++
  introspected sp token "refresh_token" reports_dead ++
  if seqb (sp_revocation sp) "" then []
  else [(revokes_token sp new "refresh_token", answers 200);
        (client_posts sp (sp_token sp) (refreshes_with new), complains 400 "invalid_grant")] ++
       introspected sp new "refresh_token" reports_dead.

(** What every passing run has seen. *)
Definition seen_resource (sp : spec) : list (test_request * (rw -> Prop)) :=
  [(asks_resource sp ∅, fun w => rec_code w = 401%Z /\ rw_body w = "" /\
      exists realm, auth_param w "realm" = Some realm /\ realm <> "");
   (asks_resource sp {[ "Authorization" := "invalid" ]}, challenges 400 "invalid_request");
   (with_token sp (sp_invalid_token sp), challenges 401 "invalid_token");
   (with_token sp (sp_unknown_token sp), challenges 401 "invalid_token");
   (with_token sp (sp_expired_token sp), challenges 401 "invalid_token");
   (with_token sp (sp_insufficient_token sp), challenges 403 "insufficient_scope")].
(** The endpoints themselves. *)
Definition seen_token_endpoint (sp : spec) : list (test_request * (rw -> Prop)) :=
  [(posts_as "" "" (sp_token sp) ∅, complains 400 "invalid_request");
   (posts_as "unknown" "" (sp_token sp) {[ "grant_type" := "password" ]},
      complains 401 "invalid_client");
   (client_posts sp (sp_token sp) {[ "grant_type" := "invalid" ]}, complains 400 "invalid_request")].
Definition asks_for (kind client redirect : string) : gmap string string :=
  {[ "response_type" := kind; "client_id" := client; "redirect_uri" := redirect ]}.
Definition seen_authorization_endpoint (sp : spec) : list (test_request * (rw -> Prop)) :=
  [(posts_as "" "" (sp_authorize sp) ∅, complains 400 "invalid_request");
   (posts_as "" "" (sp_authorize sp) (asks_for "code" "invalid" (sp_primary_redirect sp)), turns_away);
   (posts_as "" "" (sp_authorize sp) (asks_for "code" (sp_client sp) (sp_invalid_redirect sp)),
      complains 400 "invalid_request");
   (posts_as (sp_client sp) "" (sp_authorize sp)
      (asks_for "invalid" (sp_client sp) (sp_primary_redirect sp)), complains 400 "invalid_request");
   ({| sr_method := "GET"; sr_path := sp_authorize sp; sr_header := ∅;
       sr_form := asks_for "token" (sp_client sp) (sp_primary_redirect sp);
       sr_username := sp_client sp; sr_password := "" |}, fun w => rec_code w <> 404%Z)].
(** What the introspection and the revocation endpoint refuse. *)
Definition seen_lookup (sp : spec) (path : string) : list (test_request * (rw -> Prop)) :=
  let valid := {[ "token" := sp_valid_token sp ]} in
  [(posts_as "" "" path ∅, complains 400 "invalid_request");
   (posts_as "" "" path valid, complains 400 "invalid_request");
   (client_posts sp path ∅, complains 400 "invalid_request");
   (client_posts sp path {[ "token" := sp_valid_token sp; "token_type_hint" := "invalid" ]},
      complains 400 "unsupported_token_type");
   (posts_as "unknown" "" path valid, turns_away);
   (posts_as (sp_client sp) "" path valid, turns_away);
   (posts_as (sp_public sp) "" path valid, complains 401 "invalid_client");
   (client_posts sp path {[ "token" := sp_invalid_token sp ]}, complains 400 "invalid_request");
   (client_posts sp path {[ "token" := sp_unknown_token sp ]}, answers 200)].
Definition seen_introspection (sp : spec) : list (test_request * (rw -> Prop)) :=
  [({| sr_method := "GET"; sr_path := sp_introspection sp; sr_header := ∅; sr_form := ∅;
       sr_username := ""; sr_password := "" |}, complains 400 "invalid_request")] ++
  seen_lookup sp (sp_introspection sp) ++
  [(client_posts sp (sp_introspection sp)
      {[ "token" := sp_valid_token sp; "token_type_hint" := "access_token" ]},
      fun w => rec_code w = 200%Z /\ json_field_bool w "active" = true)].
Definition seen_password (sp : spec) (access refresh access2 new : string)
  : list (test_request * (rw -> Prop)) :=
  let owner := sp_owner sp in let pw := sp_owner_password sp in let sc := sp_valid_scope sp in
  [(posts_as (sp_client sp) "invalid" (sp_token sp) (logs_in owner pw sc),
      complains 401 "invalid_client");
   (client_posts sp (sp_token sp) (logs_in "invalid" pw sc), complains 403 "access_denied");
   (client_posts sp (sp_token sp) (logs_in owner "invalid" sc), complains 403 "access_denied");
   (client_posts sp (sp_token sp) (logs_in owner pw (sp_invalid_scope sp)),
      complains 400 "invalid_scope");
   (client_posts sp (sp_token sp) (logs_in owner pw (sp_exceeding_scope sp)),
      complains 400 "invalid_scope");
   (client_posts sp (sp_token sp) (logs_in owner pw sc), hands_out sp access refresh)] ++
  access_life sp access ++ refresh_life sp refresh access2 new.
Definition seen_client_credentials (sp : spec) (access refresh access2 new : string)
  : list (test_request * (rw -> Prop)) :=
  [(posts_as (sp_client sp) "invalid" (sp_token sp) (asks_for_itself (sp_valid_scope sp)),
      turns_away);
   (posts_as (sp_public sp) "" (sp_token sp) (asks_for_itself (sp_valid_scope sp)),
      turns_away);
   (client_posts sp (sp_token sp) (asks_for_itself (sp_invalid_scope sp)),
      complains 400 "invalid_scope");
   (client_posts sp (sp_token sp) (asks_for_itself (sp_exceeding_scope sp)),
      complains 400 "invalid_scope");
   (client_posts sp (sp_token sp) (asks_for_itself (sp_valid_scope sp)),
      hands_out sp access refresh)] ++
  access_life sp access ++ refresh_life sp refresh access2 new.
(** Refusals of the authorization endpoint. *)
Definition seen_refusals (sp : spec) (kind : string) (read : rw -> string -> option string)
  : list (test_request * (rw -> Prop)) :=
  [(decides sp (sp_valid_params sp) (sp_valid_headers sp) kind (sp_invalid_scope sp),
      sends_back read "error" "invalid_scope");
   (decides sp (sp_valid_params sp) (sp_valid_headers sp) kind (sp_exceeding_scope sp),
      sends_back read "error" "invalid_scope");
   (decides sp None None kind (sp_valid_scope sp), sends_back read "error" "access_denied");
   (decides sp (sp_invalid_params sp) (sp_invalid_headers sp) kind (sp_valid_scope sp),
      sends_back read "error" "access_denied")].
Definition seen_implicit (sp : spec) (access : string) : list (test_request * (rw -> Prop)) :=
  seen_refusals sp "token" loc_fragment ++
  [(decides sp (sp_valid_params sp) (sp_valid_headers sp) "token" (sp_valid_scope sp),
      fun w => sends_back loc_fragment "access_token" access w /\
        loc_fragment w "token_type" = Some "bearer" /\
        loc_fragment w "scope" = Some (sp_valid_scope sp) /\
        loc_fragment w "expires_in" = Some (itoa (sp_expires_in sp)) /\
        loc_fragment w "refresh_token" = Some "")] ++
  access_life sp access.
(** The second code is offered twice. *)
Definition seen_code (sp : spec) (code access refresh access2 new code2 a2 r2 : string)
  : list (test_request * (rw -> Prop)) :=
  let redeem code := client_posts sp (sp_token sp) (redeems sp code (sp_primary_redirect sp)) in
  let approve := decides sp (sp_valid_params sp) (sp_valid_headers sp) "code" (sp_valid_scope sp) in
  seen_refusals sp "code" loc_query ++
  [(approve, sends_back loc_query "code" code);
   (posts_as (sp_client sp) "invalid" (sp_token sp)
      (redeems sp (sp_invalid_code sp) (sp_primary_redirect sp)), complains 401 "invalid_client");
   (redeem (sp_invalid_code sp), complains 400 "invalid_request");
   (redeem (sp_unknown_code sp), complains 400 "invalid_grant");
   (redeem (sp_expired_code sp), complains 400 "invalid_grant");
   (posts_as (sp_public sp) "" (sp_token sp) (redeems sp code (sp_primary_redirect sp)),
      complains 400 "invalid_grant");
   (client_posts sp (sp_token sp) (redeems sp code (sp_secondary_redirect sp)),
      complains 400 "invalid_grant");
   (redeem code, hands_out sp access refresh)] ++
  access_life sp access ++ refresh_life sp refresh access2 new ++
  [(approve, sends_back loc_query "code" code2);
   (redeem code2, hands_out sp a2 r2); (redeem code2, complains 400 "invalid_grant")] ++
  if sp_replay sp
  then [(with_token sp a2, answers 401);
        (client_posts sp (sp_token sp) (refreshes_with r2), complains 400 "invalid_grant")]
  else [].
Definition seen_refresh (sp : spec) (access new : string) : list (test_request * (rw -> Prop)) :=
  let use token := client_posts sp (sp_token sp) (refreshes_with token) in
  [(posts_as (sp_client sp) "invalid" (sp_token sp) (refreshes_with (sp_valid_refresh sp)),
      complains 401 "invalid_client");
   (use (sp_invalid_refresh sp), complains 400 "invalid_request");
   (use (sp_unknown_refresh sp), complains 400 "invalid_grant");
   (use (sp_expired_refresh sp), complains 400 "invalid_grant");
   (posts_as (sp_public sp) "" (sp_token sp) (refreshes_with (sp_valid_refresh sp)),
      complains 400 "invalid_grant");
   (client_posts sp (sp_token sp)
      {[ "scope" := sp_exceeding_scope sp; "grant_type" := "refresh_token";
         "refresh_token" := sp_valid_refresh sp ]}, complains 400 "invalid_scope")] ++
  refresh_life sp (sp_valid_refresh sp) access new.

(** All of that, of one list of exchanges. *)
Definition examined (sp : spec) (made : list (test_request * rw)) : Prop :=
  seen (seen_resource sp) made /\
  (sp_password_grant sp = true \/ sp_client_credentials_grant sp = true \/
   sp_code_grant sp = true \/ sp_refresh_grant sp = true ->
     seen (seen_token_endpoint sp) made) /\
  (sp_implicit_grant sp = true \/ sp_code_grant sp = true ->
     seen (seen_authorization_endpoint sp) made) /\
  (sp_password_grant sp = true -> exists a r a2 n, seen (seen_password sp a r a2 n) made) /\
  (sp_client_credentials_grant sp = true ->
     exists a r a2 n, seen (seen_client_credentials sp a r a2 n) made) /\
  (sp_implicit_grant sp = true -> exists a, seen (seen_implicit sp a) made) /\
  (sp_code_grant sp = true ->
     exists code a r a2 n code2 a3 r3, seen (seen_code sp code a r a2 n code2 a3 r3) made) /\
  (sp_refresh_grant sp = true -> exists a n, seen (seen_refresh sp a n) made) /\
  (sp_introspection sp <> "" -> seen (seen_introspection sp) made) /\
  (sp_revocation sp <> "" ->
     seen (seen_lookup sp (sp_revocation sp) ++ access_life sp (sp_valid_token sp)) made).
