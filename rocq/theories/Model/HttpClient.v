(** http.Client.Do as the client of client.go uses it (client.go:64, 99, 134):
    the messages it sends, the redirects it follows, and what a server makes
    of a message. *)
From Verif.Model Require Export Client.

#[local] Open Scope string_scope.

(** ** net/url *)

(** url.go URL.RequestURI. *)
Definition request_uri (u : url) : string :=
  (if seqb (u_opaque u) "" then
     let p := escaped_path u in if seqb p "" then "/" else p
   else match strip_prefix "//" (u_opaque u) with
        | Some _ => u_scheme u +:+ ":" +:+ u_opaque u
        | None => u_opaque u
        end)
  +:+ (if u_forcequery u || negb (seqb (u_rawquery u) "") then "?" +:+ u_rawquery u else "").

(** url.go splitHostPort, behind URL.Hostname and URL.Port. *)
Definition split_host_port (hostport : string) : string * string :=
  let '(host, port) :=
    match last_cut ":" hostport with
    | Some (h, p) => if valid_optional_port (String ":" p) then (h, p) else (hostport, "")
    | None => (hostport, "")
    end in
  (match strip_prefix "[" host with
   | Some h => match last_cut "]" h with Some (x, "") => x | _ => host end
   | None => host
   end, port).

(** url.go resolvePath, the loop: [dst] is what was written, [first] tells
    that no '/' comes before the next element. *)
Fixpoint resolve_elems (first : bool) (dst : string) (elems : list string) : string :=
  match elems with
  | [] => dst
  | e :: rest =>
      if seqb e "." then resolve_elems false dst rest
      else if seqb e ".." then
        match last_cut "/" dst with
        | Some (d, _) => resolve_elems first d rest
        | None => resolve_elems true "" rest
        end
      else resolve_elems false (dst +:+ (if first then "" else "/") +:+ e) rest
  end.
(** url.go resolvePath. *)
Definition resolve_path (base ref : string) : string :=
  let full :=
    match ref with
    | "" => base
    | String "/" _ => ref
    | _ => match last_cut "/" base with Some (d, _) => d +:+ "/" +:+ ref | None => ref end
    end in
  if seqb full "" then ""
  else
    let elems := split "/" full in
    let dst := resolve_elems true "" elems in
    let dst' := match List.last elems "" with
                | "." | ".." => dst +:+ "/"
                | _ => dst
                end in
    "/" +:+ match strip_prefix "/" dst' with Some d => d | None => dst' end.

(** url.go URL.setPath with the error ignored. *)
Definition set_path (u : url) (p : string) : url :=
  match set_escaped EncPath p with
  | Some (path, rawpath) =>
      {| u_scheme := u_scheme u; u_opaque := u_opaque u; u_user := u_user u; u_host := u_host u;
         u_path := path; u_rawpath := rawpath; u_forcequery := u_forcequery u;
         u_rawquery := u_rawquery u; u_fragment := u_fragment u; u_rawfragment := u_rawfragment u |}
  | None => u
  end.

(** url.go URL.ResolveReference. *)
Definition resolve_reference (u ref : url) : url :=
  let scheme := if seqb (u_scheme ref) "" then u_scheme u else u_scheme ref in
  let has_user := match u_user ref with Some _ => true | None => false end in
  if negb (seqb (u_scheme ref) "") || negb (seqb (u_host ref) "") || has_user then
    set_path {| u_scheme := scheme; u_opaque := u_opaque ref; u_user := u_user ref; u_host := u_host ref;
                u_path := u_path ref; u_rawpath := u_rawpath ref; u_forcequery := u_forcequery ref;
                u_rawquery := u_rawquery ref; u_fragment := u_fragment ref;
                u_rawfragment := u_rawfragment ref |}
             (resolve_path (escaped_path ref) "")
  else if negb (seqb (u_opaque ref) "") then
    {| u_scheme := scheme; u_opaque := u_opaque ref; u_user := None; u_host := ""; u_path := "";
       u_rawpath := u_rawpath ref; u_forcequery := u_forcequery ref; u_rawquery := u_rawquery ref;
       u_fragment := u_fragment ref; u_rawfragment := u_rawfragment ref |}
  else
    let same := seqb (u_path ref) "" && seqb (u_rawquery ref) "" in
    let same_frag := same && seqb (u_fragment ref) "" in
    set_path {| u_scheme := scheme; u_opaque := u_opaque ref; u_user := u_user u; u_host := u_host u;
                u_path := u_path ref; u_rawpath := u_rawpath ref; u_forcequery := u_forcequery ref;
                u_rawquery := if same then u_rawquery u else u_rawquery ref;
                u_fragment := if same_frag then u_fragment u else u_fragment ref;
                u_rawfragment := if same_frag then u_rawfragment u else u_rawfragment ref |}
             (resolve_path (escaped_path u) (escaped_path ref)).

(** url.go URL.Parse: a reference in the context of a URL. *)
Definition parse_reference (u : url) (ref : string) : option url :=
  match url_parse ref with
  | Some r => Some (resolve_reference u r)
  | None => None
  end.

(** ** Messages *)

(** An http.Request on its way out: [ms_host] is Request.Host, "" for the host
    of the URL; [ms_body] is [None] for no body. All bodies of /repo can be
    sent again (NewRequest sets GetBody for a strings.Reader). *)
Record message := {
  ms_method : string;
  ms_url : url;
  ms_host : string;
  ms_header : headers;
  ms_body : option string
}.

(** http.Header.Get of a canonical key. *)
Definition header_get (h : headers) (k : string) : string :=
  match h !! k with Some (v :: _) => v | _ => "" end.

(** request.go removeEmptyPort. *)
Definition remove_empty_port (host : string) : string :=
  match last_cut ":" host with
  | Some (h, "") => h
  | _ => host
  end.

(** http.NewRequest("POST", uri, body). *)
Definition new_post (uri body : string) : option message :=
  match url_parse uri with
  | None => None
  | Some u =>
      let host := remove_empty_port (u_host u) in
      Some {| ms_method := "POST";
              ms_url := {| u_scheme := u_scheme u; u_opaque := u_opaque u; u_user := u_user u;
                           u_host := host; u_path := u_path u; u_rawpath := u_rawpath u;
                           u_forcequery := u_forcequery u; u_rawquery := u_rawquery u;
                           u_fragment := u_fragment u; u_rawfragment := u_rawfragment u |};
              ms_host := host; ms_header := ∅; ms_body := Some body |}
  end.

(** Header.Set. *)
Definition set_header (m : message) (k v : string) : message :=
  {| ms_method := ms_method m; ms_url := ms_url m; ms_host := ms_host m;
     ms_header := <[canonical_key k := [v]]> (ms_header m); ms_body := ms_body m |}.

(** The common part of the three Build functions: token.go:236-255,
    introspection.go:126-145, revocation.go:81-100. *)
Definition post_message (uri : string) (vals : values) (client_id client_secret : string)
  : option message :=
  match new_post uri (encode_values vals) with
  | None => None
  | Some m =>
      let m1 := if negb (seqb client_id "") || negb (seqb client_secret "")
                then set_header m "Authorization" (basic_auth_header client_id client_secret) else m in
      Some (set_header m1 "Content-Type" form_ctype)
  end.

(** client.go (net/http) send and transport.go roundTrip: what is put on the
    connection, [None] for an error before anything is sent. A message without
    Authorization header gets one from the user part of its URL. *)
Definition on_wire (m : message) : option message :=
  if negb (seqb (u_scheme (ms_url m)) "http") && negb (seqb (u_scheme (ms_url m)) "https") then None
  else if seqb (u_host (ms_url m)) "" then None
  else match u_user (ms_url m) with
       | Some ui =>
           if seqb (header_get (ms_header m) "Authorization") ""
           then Some (set_header m "Authorization"
                        (basic_auth_header (ui_name ui) (default "" (ui_password ui))))
           else Some m
       | None => Some m
       end.

(** ** Redirects *)

(** A response together with its Location header, "" if absent. *)
Record reply := { rp_response : response; rp_location : string }.

(** client.go (net/http) redirectBehavior: the method of the next request and
    whether it has the body, [None] if the response is the result. *)
Definition redirect_behavior (method : string) (a : reply) : option (string * bool) :=
  let status := rs_status (rp_response a) in
  if (status =? 301)%Z || (status =? 302)%Z || (status =? 303)%Z
  then Some (if seqb method "GET" || seqb method "HEAD" then method else "GET", false)
  else if (status =? 307)%Z || (status =? 308)%Z
  then if seqb (rp_location a) "" then None else Some (method, true)
  else None.

(** What the functions of an http.Client decide. [hc_check] is CheckRedirect,
    called with the next request and the ones before it; [hc_idna] is the
    ASCII form of a host with other bytes, [None] if there is none (any
    function: no theorem depends on it). *)
Inductive verdict := Follow | UseLast | Refuse.
(** See above. *)
Record http_client := {
  hc_check : message -> list message -> verdict;
  hc_idna : string -> option string
}.
(** client.go (net/http) defaultCheckRedirect. *)
Definition default_check (next : message) (via : list message) : verdict :=
  if (10 <=? List.length via)%nat then Refuse else Follow.
(** client.go:33-35: new(http.Client). *)
Definition default_http_client (idna : string -> option string) : http_client :=
  {| hc_check := default_check; hc_idna := idna |}.
(** A client whose CheckRedirect returns ErrUseLastResponse. *)
Definition careful_http_client (idna : string -> option string) : http_client :=
  {| hc_check := fun _ _ => UseLast; hc_idna := idna |}.

(** A byte of ASCII. *)
Definition is_ascii (c : ascii) : bool := (ord c <? 128)%N.
(** transport.go idnaASCII. *)
Definition idna_ascii (hc : http_client) (host : string) : string :=
  if all_bytes is_ascii host then host else default host (hc_idna hc host).
(** transport.go portMap. *)
Definition default_port (scheme : string) : string :=
  if seqb scheme "http" then "80" else if seqb scheme "https" then "443"
  else if seqb scheme "socks5" then "1080" else "".
(** net.JoinHostPort. *)
Definition join_host_port (host port : string) : string :=
  if contains ":" host then "[" +:+ host +:+ "]:" +:+ port else host +:+ ":" +:+ port.
(** transport.go canonicalAddr: the address a URL is about. *)
Definition canonical_addr (hc : http_client) (u : url) : string :=
  let '(host, port) := split_host_port (u_host u) in
  join_host_port (idna_ascii hc host) (if seqb port "" then default_port (u_scheme u) else port).

(** client.go (net/http) isDomainOrSubdomain. *)
Definition is_domain_or_subdomain (sub parent : string) : bool :=
  seqb sub parent ||
  (let n := (slen sub - slen parent)%nat in
   (slen parent <? slen sub)%nat &&
   match drop_str (n - 1) sub with
   | Some rest => seqb rest ("." +:+ parent)
   | None => false
   end).
(** client.go (net/http) shouldCopyHeaderOnRedirect. *)
Definition should_copy (hc : http_client) (key : string) (from dest : url) : bool :=
  if seqb key "Authorization" || seqb key "Www-Authenticate" || seqb key "Cookie" || seqb key "Cookie2"
  then is_domain_or_subdomain (canonical_addr hc dest) (canonical_addr hc from)
  else true.

(** strings.Replace(s, old, "", 1). *)
Fixpoint remove_first (old s : string) : string :=
  match strip_prefix old s with
  | Some rest => rest
  | None => match s with "" => "" | String a r => String a (remove_first old r) end
  end.
(** client.go (net/http) refererForURL. *)
Definition referer_for_url (last next : url) : string :=
  if seqb (u_scheme last) "https" && seqb (u_scheme next) "http" then ""
  else match u_user last with
       | Some ui => remove_first (userinfo_string ui +:+ "@") (url_string last)
       | None => url_string last
       end.

(** client.go (net/http) Client.do, the next request: [first] is the request
    the caller made, [m] the one that was answered with the redirect. The
    headers come from the first request, but whether Authorization is among
    them is decided by the hosts of [m] and of the next one
    (makeHeadersCopier). Simplification: no cookie jar. *)
Definition next_message (hc : http_client) (first m : message) (method : string) (with_body : bool)
  (loc : string) (u : url) : message :=
  let relative := match url_parse loc with Some l => seqb (u_scheme l) "" | None => false end in
  let host := if negb (seqb (ms_host m) "") && negb (seqb (ms_host m) (u_host (ms_url m))) && relative
              then ms_host m else "" in
  let copied := filter (fun kv => should_copy hc kv.1 (ms_url m) u = true) (ms_header first) in
  let ref := referer_for_url (ms_url m) u in
  {| ms_method := method; ms_url := u; ms_host := host;
     ms_header := if seqb ref "" then copied else <["Referer" := [ref]]> copied;
     ms_body := if with_body then ms_body first else None |}.

(** What the world answers: it is asked with all messages sent so far, the
    latest last, and may fail. *)
Definition network := list message -> option reply.

(** How Client.do ends: with a response, with an error, or not within the
    given number of redirects. *)
Inductive did := Got (a : reply) | Failed | Running.

(** client.go (net/http) Client.do: [via] are the requests made, [wire] the
    messages sent, [m] is the next request. *)
Fixpoint hops (fuel : nat) (hc : http_client) (net : network) (first : message) (via wire : list message)
  (m : message) : list message * did :=
  match on_wire m with
  | None => (wire, Failed)
  | Some w =>
      let wire' := (wire ++ [w])%list in
      match net wire' with
      | None => (wire', Failed)
      | Some a =>
          match redirect_behavior (ms_method m) a with
          | None => (wire', Got a)
          | Some (method, with_body) =>
              match fuel with
              | O => (wire', Running)
              | S fuel' =>
                  if seqb (rp_location a) "" then (wire', Failed)
                  else match parse_reference (ms_url m) (rp_location a) with
                       | None => (wire', Failed)
                       | Some u =>
                           let next := next_message hc first m method with_body (rp_location a) u in
                           let via' := (via ++ [m])%list in
                           match hc_check hc next via' with
                           | Follow => hops fuel' hc net first via' wire' next
                           | UseLast => (wire', Got a)
                           | Refuse => (wire', Failed)
                           end
                       end
              end
          end
      end
  end.
(** http.Client.Do (client.go:64, 99, 134). *)
Definition http_do (fuel : nat) (hc : http_client) (net : network) (m : message) : list message * did :=
  hops fuel hc net m [] [] m.

(** ** Calls of the client over a network *)

(** client.go:53-84 [Authenticate]: the messages sent and the result, [None] if
    the redirects do not end within [fuel]. *)
Definition authenticate_over (fuel : nat) (hc : http_client) (net : network) (c : client_config) (q : token_request)
  : list message * option (token_response + goerr) :=
  match post_message (cc_base_uri c +:+ cc_token_endpoint c) (token_request_values q) (tq_client_id q) (tq_client_secret q) with
  | None => ([], Some (inr GOther))
  | Some m =>
      let '(sent, d) := http_do fuel hc net m in
      (sent, match d with
             | Running => None
             | Failed => Some (inr GOther)
             | Got a =>
                 let res := rp_response a in
                 Some (if negb (rs_status res =? 200)%Z
                       then inr (parse_request_error res (cc_response_limit c))
                       else match parse_token_response res (cc_response_limit c) with
                            | Some r => inl r
                            | None => inr GOther
                            end)
             end)
  end.

(** client.go:88-119 [Introspect]. *)
Definition introspect_over (fuel : nat) (hc : http_client) (net : network) (c : client_config) (q : lookup_request)
  : list message * option (introspection_response + goerr) :=
  match post_message (cc_base_uri c +:+ cc_introspection_endpoint c) (lookup_request_values q) (lq_client_id q) (lq_client_secret q) with
  | None => ([], Some (inr GOther))
  | Some m =>
      let '(sent, d) := http_do fuel hc net m in
      (sent, match d with
             | Running => None
             | Failed => Some (inr GOther)
             | Got a =>
                 let res := rp_response a in
                 Some (if negb (rs_status res =? 200)%Z
                       then inr (parse_request_error res (cc_response_limit c))
                       else match parse_introspection_response res (cc_response_limit c) with
                            | Some r => inl r
                            | None => inr GOther
                            end)
             end)
  end.

(** client.go:123-148 [Revoke]; [Some None] is success. *)
Definition revoke_over (fuel : nat) (hc : http_client) (net : network) (c : client_config) (q : lookup_request)
  : list message * option (option goerr) :=
  match post_message (cc_base_uri c +:+ cc_revocation_endpoint c) (lookup_request_values q) (lq_client_id q) (lq_client_secret q) with
  | None => ([], Some (Some GOther))
  | Some m =>
      let '(sent, d) := http_do fuel hc net m in
      (sent, match d with
             | Running => None
             | Failed => Some (Some GOther)
             | Got a =>
                 let res := rp_response a in
                 Some (if negb (rs_status res =? 200)%Z
                       then Some (parse_request_error res (cc_response_limit c))
                       else None)
             end)
  end.

(** ** The receiving side *)

(** request.go write and readRequest: the Request a handler gets for a
    message. The target of the request line must not contain a blank (the
    line is cut at the blanks), and must parse. [None] stands for the 400 that
    net/http answers itself. Simplification: the header fields the handler
    does not look at are not transported. *)
Definition arrives (w : message) : option request :=
  let target := request_uri (ms_url w) in
  if contains " " target then None
  else match parse_request_uri target with
       | None => None
       | Some u =>
           Some {| rq_method := ms_method w; rq_path := u_path u; rq_query := u_rawquery u;
                   rq_auth := header_get (ms_header w) "Authorization";
                   rq_ctype := header_get (ms_header w) "Content-Type";
                   rq_body := Some (default "" (ms_body w), true); rq_preset := None |}
       end.

(** server.go (net/http) conn.serve: the answer to a request that cannot be read. *)
Definition bad_request : reply :=
  {| rp_response := {| rs_status := 400; rs_ctype := "text/plain; charset=utf-8";
                       rs_body := "400 Bad Request"; rs_clean := true |};
     rp_location := "" |}.

(** The reply for what a handler wrote. *)
Definition reply_of (w : rw) : option reply :=
  match received w with
  | Some rs => Some {| rp_response := rs;
                       rp_location := match rw_sent w with
                                      | Some (_, h) => header_get h "Location"
                                      | None => ""
                                      end |}
  | None => None
  end.

(** The server of server.go answering a message. *)
Definition answers (ev : env) (s : server) (w : message) : option reply :=
  match arrives w with
  | None => Some bad_request
  | Some r => match snd (serve_http ev s r new_rw) with
              | Some w' => reply_of w'
              | None => None
              end
  end.
