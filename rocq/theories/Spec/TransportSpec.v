(** Vocabulary for where the requests of a client go and what they carry. *)
From Verif.Model Require Import HttpClient.
From Verif.Spec Require Import ScopeSpec WireSpec RequestSpec ServerSpec ClientSpec.

(** A call of one of the methods of a client. *)
Inductive call :=
| CallAuthenticate (q : token_request)
| CallIntrospect (q : lookup_request)
| CallRevoke (q : lookup_request).

(** The endpoint configured for it, and the parameters and the client
    credentials it is made with. *)
Definition endpoint_of (c : client_config) (k : call) : string :=
  match k with
  | CallAuthenticate _ => cc_base_uri c +:+ cc_token_endpoint c
  | CallIntrospect _ => cc_base_uri c +:+ cc_introspection_endpoint c
  | CallRevoke _ => cc_base_uri c +:+ cc_revocation_endpoint c
  end.
Definition parameters (k : call) : values :=
  match k with
  | CallAuthenticate q => token_request_values q
  | CallIntrospect q | CallRevoke q => lookup_request_values q
  end.
Definition client_of (k : call) : string * string :=
  match k with
  | CallAuthenticate q => (tq_client_id q, tq_client_secret q)
  | CallIntrospect q | CallRevoke q => (lq_client_id q, lq_client_secret q)
  end.

(** The messages it sends, in order, and whether it returns, if at most [n]
    redirects are followed. *)
Definition messages (n : nat) (hc : http_client) (net : network) (c : client_config) (k : call) : list message :=
  match k with
  | CallAuthenticate q => fst (authenticate_over n hc net c q)
  | CallIntrospect q => fst (introspect_over n hc net c q)
  | CallRevoke q => fst (revoke_over n hc net c q)
  end.
Definition returns (n : nat) (hc : http_client) (net : network) (c : client_config) (k : call) : Prop :=
  match k with
  | CallAuthenticate q => snd (authenticate_over n hc net c q) <> None
  | CallIntrospect q => snd (introspect_over n hc net c q) <> None
  | CallRevoke q => snd (revoke_over n hc net c q) <> None
  end.

(** The message goes to the server of this URI: same scheme and same host with
    port (a port may be written as nothing behind a colon). *)
Definition goes_to (uri : string) (w : message) : Prop :=
  exists u, url_parse uri = Some u /\ u_scheme (ms_url w) = u_scheme u /\
    (u_host u = u_host (ms_url w) \/ u_host u = u_host (ms_url w) +:+ ":").
(** The message asks for exactly what the URI names. *)
Definition asks_for (uri : string) (w : message) : Prop :=
  goes_to uri w /\ exists u, url_parse uri = Some u /\
    u_path (ms_url w) = u_path u /\ u_rawquery (ms_url w) = u_rawquery u.

(** It carries the parameters of the call (codes, passwords, tokens), or the
    name and secret of the client. *)
Definition carries_parameters (w : message) (k : call) : Prop := ms_body w = Some (encode_values (parameters k)).
Definition carries_secret (w : message) (k : call) : Prop :=
  header_get (ms_header w) "Authorization" = basic_auth_header (fst (client_of k)) (snd (client_of k)).
(** The call is made with the name or the secret of a client. *)
Definition has_secret (k : call) : Prop := client_of k <> ("", "").

(** The answers that are redirects, and the ones that ask for the same request again. *)
Definition redirects (a : reply) : Prop := In (rs_status (rp_response a)) [301; 302; 303; 307; 308]%Z.
Definition repeats (a : reply) : Prop := In (rs_status (rp_response a)) [307; 308]%Z.

(** The URL without name and password of a user. *)
Definition without_user (u : url) : url :=
  {| u_scheme := u_scheme u; u_opaque := u_opaque u; u_user := None; u_host := u_host u; u_path := u_path u;
     u_rawpath := u_rawpath u; u_forcequery := u_forcequery u; u_rawquery := u_rawquery u;
     u_fragment := u_fragment u; u_rawfragment := u_rawfragment u |}.

(** A redirect says where it leads. *)
Definition redirect_named (w : message) (a : reply) : Prop :=
  redirects a -> rp_location a <> "" /\ is_Some (parse_reference (ms_url w) (rp_location a)).

(** Where a reference leads within a server (RFC 3986, 5.2.3 and 5.2.4): the
    reference itself, or with the directory of the old path before it, where
    "." means nothing and ".." takes the segment before it away. A path with
    more ".." than segments before them has no meaning here. *)
Definition path_of (segments : list string) : string := String.concat "" (map (fun x => "/" +:+ x) segments).
Inductive merges : string -> string -> string -> Prop :=
| merges_none old : merges old "" old
| merges_absolute old ref : merges old (String "/" ref) (String "/" ref)
| merges_relative dir file c ref : without "/" file -> c <> "/"%char ->
    merges (dir +:+ String "/" file) (String c ref) (dir +:+ String "/" (String c ref)).
(** The segments read so far, last one first, the others, and the result. *)
Inductive without_dots : list string -> list string -> list string -> Prop :=
| dots_end l : without_dots l [] (rev l)
| dots_end_here l : without_dots l ["."] (rev l ++ [""])
| dots_end_up x l : without_dots (x :: l) [".."] (rev l ++ [""])
| dots_here l rest res : rest <> [] -> without_dots l rest res -> without_dots l ("." :: rest) res
| dots_up x l rest res : rest <> [] -> without_dots l rest res -> without_dots (x :: l) (".." :: rest) res
| dots_name x l rest res : x <> "." -> x <> ".." -> without_dots (x :: l) rest res -> without_dots l (x :: rest) res.
Definition path_leads (old ref new : string) : Prop :=
  exists segments res, Forall (without "/") segments /\ merges old ref (path_of segments) /\
    without_dots [] segments res /\ new = path_of res.

(** An address is another one or one below it: [b] is [a], or [b] is "x.a". *)
Definition within_domain (a b : string) : Prop := b = a \/ exists x, b = x +:+ "." +:+ a.

(** Sending this URI works: http or https, a host, a path, and no blank in the
    query. *)
Definition sendable (uri : string) : Prop :=
  exists u, url_parse uri = Some u /\ In (u_scheme u) ["http"; "https"] /\ remove_empty_port (u_host u) <> "" /\
    u_path u <> "" /\ without " " (u_rawquery u).
(** The server answers the first message, in the state and environment given. *)
Definition first_answered (net : network) (ev : env) (s : server) : Prop :=
  forall w, net [w] = answers ev s w.
