(** net/url (Go standard library, version 1.16 as pinned by
    .github/workflows/test.yml) as used at authorization.go:52, 58,
    token.go:75, 82, 190, 238, oauth2.go:93-124, introspection.go:128,
    revocation.go:83 and, through net/http, by Request.ParseForm. *)
From Verif.Model Require Export GoStr.
Local Open Scope N_scope.

(** url.go encoding (encodePathSegment is not used here). *)
Inductive mode :=
  EncPath | EncUserPassword | EncHost | EncZone | EncQuery | EncFragment.

(** Equality of modes. *)
Definition mode_eqb (a b : mode) : bool :=
  match a, b with
  | EncPath, EncPath | EncUserPassword, EncUserPassword | EncHost, EncHost
  | EncZone, EncZone | EncQuery, EncQuery | EncFragment, EncFragment => true
  | _, _ => false
  end.

(** ASCII letters. *)
Definition is_alpha (c : ascii) : bool := is_lower c || is_upper c.
(** ASCII letters and digits. *)
Definition is_alnum (c : ascii) : bool := is_alpha c || is_digit c.
(** One of the given characters. *)
Definition is_one_of (cs : string) (c : ascii) : bool := contains c cs.

(** A double quote. *)
Definition dquote : ascii := "034"%char.

(** url.go shouldEscape. *)
Definition should_escape (m : mode) (c : ascii) : bool :=
  if is_alnum c then false
  else if (mode_eqb m EncHost || mode_eqb m EncZone)
          && (is_one_of "!$&'()*+,;=:[]<>" c || Ascii.eqb c dquote) then false
  else if is_one_of "-_.~" c then false
  else if is_one_of "$&+,/:;=?@" c then
    match m with
    | EncPath => Ascii.eqb c "?"%char
    | EncUserPassword => is_one_of "@/?:" c
    | EncQuery => true
    | EncFragment => false
    | EncHost | EncZone => true
    end
  else if mode_eqb m EncFragment && is_one_of "!()*" c then false
  else true.

(** url.go ishex and unhex. *)
Definition unhex (c : ascii) : option N :=
  if is_digit c then Some (ord c - 48)
  else if (97 <=? ord c) && (ord c <=? 102) then Some (ord c - 87)
  else if (65 <=? ord c) && (ord c <=? 70) then Some (ord c - 55)
  else None.

(** Upper-case hexadecimal digit. *)
Definition hex_char (n : N) : ascii := if n <? 10 then chr (48 + n) else chr (55 + n).

(** url.go escape. *)
Definition escape_byte (m : mode) (c : ascii) : string :=
  if mode_eqb m EncQuery && Ascii.eqb c " "%char then "+"
  else if should_escape m c then
    String "%" (String (hex_char (ord c / 16)) (String (hex_char (ord c mod 16)) ""))
  else str1 c.
(** url.go escape. *)
Definition escape (m : mode) (s : string) : string := flat_map_bytes (escape_byte m) s.

(** url.go unescape; [None] is an EscapeError or InvalidHostError. *)
Fixpoint unescape (m : mode) (s : string) : option string :=
  match s with
  | "" => Some ""
  | String c r =>
      if Ascii.eqb c "%"%char then
        match r with
        | String h1 (String h2 r') =>
            match unhex h1, unhex h2 with
            | Some x, Some y =>
                let v := chr (x * 16 + y) in
                let pct := Ascii.eqb h1 "2"%char && Ascii.eqb h2 "5"%char in
                if mode_eqb m EncHost && (x <? 8) && negb pct then None
                else if mode_eqb m EncZone && negb pct && negb (Ascii.eqb v " "%char)
                        && should_escape EncHost v then None
                else match unescape m r' with
                     | Some t => Some (String v t)
                     | None => None
                     end
            | _, _ => None
            end
        | _ => None
        end
      else if Ascii.eqb c "+"%char then
        match unescape m r with
        | Some t => Some (String (if mode_eqb m EncQuery then " "%char else "+"%char) t)
        | None => None
        end
      else if (mode_eqb m EncHost || mode_eqb m EncZone) && (ord c <? 128) && should_escape m c
      then None
      else match unescape m r with
           | Some t => Some (String c t)
           | None => None
           end
  end.

(** url.QueryEscape. *)
Definition query_escape : string -> string := escape EncQuery.
(** url.QueryUnescape. *)
Definition query_unescape : string -> option string := unescape EncQuery.

(** ** url.Values *)
Definition values := gmap string (list string).

(** [Values.Get]. *)
Definition vget (v : values) (k : string) : string :=
  match v !! k with
  | Some (x :: _) => x
  | _ => ""
  end.

(** [Values.Add]; also the [append] in parseQuery. *)
Definition vadd (v : values) (k x : string) : values :=
  <[k := (match v !! k with Some l => l | None => [] end) ++ [x]]> v.

(** Split at every '&' and ';' (Go 1.16 treats both as separators). *)
Definition is_sep (c : ascii) : bool := Ascii.eqb c "&"%char || Ascii.eqb c ";"%char.
(** url.go parseQuery: the pieces between the separators. *)
Fixpoint split_pairs (s : string) : list string :=
  match s with
  | "" => [""]
  | String a r =>
      if is_sep a then "" :: split_pairs r
      else match split_pairs r with
           | h :: t => String a h :: t
           | [] => [String a ""]
           end
  end.

(** One iteration of the loop of parseQuery: the values so far and whether no
    error occurred so far. *)
Definition parse_pair (acc : values * bool) (piece : string) : values * bool :=
  if seqb piece "" then acc
  else
    let '(k, x) := match cut "=" piece with Some (k, x) => (k, x) | None => (piece, "") end in
    match query_unescape k with
    | None => (fst acc, false)
    | Some k' =>
        match query_unescape x with
        | None => (fst acc, false)
        | Some x' => (vadd (fst acc) k' x', snd acc)
        end
    end.

(** url.go ParseQuery: all well-formed pairs, and whether there was no error. *)
Definition parse_query (q : string) : values * bool :=
  fold_left parse_pair (split_pairs q) (∅, true).

(** The pairs of [Values.Encode] for a given list of keys. *)
Definition encode_pairs (v : values) (keys : list string) : list string :=
  flat_map (fun k => map (fun x => query_escape k +:+ "=" +:+ query_escape x)
                         (match v !! k with Some l => l | None => [] end)) keys.

(** url.go Values.Encode with the keys collected in the given order, then sorted. *)
Definition encode_values_order (order : list string) (v : values) : string :=
  join "&" (encode_pairs v (sort_strings order)).
(** url.go Values.Encode; the keys are sorted, so the order of the map does not matter. *)
Definition encode_values (v : values) : string :=
  encode_values_order (map fst (map_to_list v)) v.

(** ** URLs *)
Record userinfo := { ui_name : string; ui_password : option string }.
(** url.go URL. *)
Record url := {
  u_scheme : string;
  u_opaque : string;
  u_user : option userinfo;
  u_host : string;
  u_path : string;
  u_rawpath : string;
  u_forcequery : bool;
  u_rawquery : string;
  u_fragment : string;
  u_rawfragment : string
}.

(** url.go getscheme: [None] is the error "missing protocol scheme". *)
Fixpoint getscheme_go (first : bool) (raw : string) : option (option (string * string)) :=
  match raw with
  | "" => Some None
  | String c r =>
      let continue :=
        match getscheme_go false r with
        | Some (Some (p, q)) => Some (Some (String c p, q))
        | Some None => Some None
        | None => None
        end in
      if is_alpha c then continue
      else if is_digit c || is_one_of "+-." c then
        if first then Some None else continue
      else if Ascii.eqb c ":"%char then
        if first then None else Some (Some ("", r))
      else Some None
  end.
(** url.go getscheme. *)
Definition getscheme (raw : string) : option (string * string) :=
  match getscheme_go true raw with
  | None => None
  | Some None => Some ("", raw)
  | Some (Some pq) => Some pq
  end.

(** url.go stringContainsCTLByte. *)
Definition is_ctl (c : ascii) : bool := (ord c <? 32) || (ord c =? 127).

(** url.go validOptionalPort. *)
Definition valid_optional_port (p : string) : bool :=
  match p with
  | "" => true
  | String c r => Ascii.eqb c ":"%char && all_bytes is_digit r
  end.

(** Cut a string before the first occurrence of "%25". *)
Fixpoint cut_pct25 (s : string) : option (string * string) :=
  match strip_prefix "%25" s with
  | Some _ => Some ("", s)
  | None => match s with
            | "" => None
            | String a r => match cut_pct25 r with
                            | Some (x, y) => Some (String a x, y)
                            | None => None
                            end
            end
  end.

(** url.go parseHost. *)
Definition parse_host (host : string) : option string :=
  match strip_prefix "[" host with
  | Some _ =>
      match last_cut "]" host with
      | None => None
      | Some (before, colon_port) =>
          if negb (valid_optional_port colon_port) then None
          else match cut_pct25 before with
               | Some (h1, h2) =>
                   match unescape EncHost h1, unescape EncZone h2,
                         unescape EncHost (String "]" colon_port) with
                   | Some a, Some b, Some c => Some (a +:+ b +:+ c)
                   | _, _, _ => None
                   end
               | None => unescape EncHost host
               end
      end
  | None =>
      match last_cut ":" host with
      | Some (_, port) =>
          if negb (valid_optional_port (String ":" port)) then None
          else unescape EncHost host
      | None => unescape EncHost host
      end
  end.

(** url.go validUserinfo. *)
Definition valid_userinfo (s : string) : bool :=
  all_bytes (fun c => is_alnum c || is_one_of "-._:~!$&'()*+,;=%@" c) s.

(** url.go parseAuthority. *)
Definition parse_authority (authority : string) : option (option userinfo * string) :=
  match last_cut "@" authority with
  | None => match parse_host authority with
            | Some h => Some (None, h)
            | None => None
            end
  | Some (ui, hostpart) =>
      match parse_host hostpart with
      | None => None
      | Some h =>
          if negb (valid_userinfo ui) then None
          else match cut ":" ui with
               | None => match unescape EncUserPassword ui with
                         | Some n => Some (Some {| ui_name := n; ui_password := None |}, h)
                         | None => None
                         end
               | Some (n, p) =>
                   match unescape EncUserPassword n, unescape EncUserPassword p with
                   | Some n', Some p' =>
                       Some (Some {| ui_name := n'; ui_password := Some p' |}, h)
                   | _, _ => None
                   end
               end
      end
  end.

(** url.go setPath / setFragment: decoded form and raw hint. *)
Definition set_escaped (m : mode) (p : string) : option (string * string) :=
  match unescape m p with
  | None => None
  | Some path => Some (path, if seqb p (escape m path) then "" else p)
  end.

(** A URL without fragment. *)
Definition mk_url scheme opaque user host path rawpath fq rq : url :=
  {| u_scheme := scheme; u_opaque := opaque; u_user := user; u_host := host;
     u_path := path; u_rawpath := rawpath; u_forcequery := fq; u_rawquery := rq;
     u_fragment := ""; u_rawfragment := "" |}.

(** First path segment contains a colon (relative references only). *)
Definition first_segment_colon (rest : string) : bool :=
  match cut "/" rest with
  | Some (seg, _) => contains ":" seg
  | None => contains ":" rest
  end.

(** url.go parse. *)
Definition parse_url (via_request : bool) (raw : string) : option url :=
  if negb (all_bytes (fun c => negb (is_ctl c)) raw) then None
  else if seqb raw "" && via_request then None
  else if seqb raw "*" then Some (mk_url "" "" None "" "*" "" false "")
  else
    match getscheme raw with
    | None => None
    | Some (scheme0, rest0) =>
        let scheme := to_lower scheme0 in
        let '(rest, fq, rq) :=
          match cut "?" rest0 with
          | Some (x, "") => (x, true, "")
          | Some (x, q) => (x, false, q)
          | None => (rest0, false, "")
          end in
        let rooted := match strip_prefix "/" rest with Some _ => true | None => false end in
        if negb rooted && negb (seqb scheme "") then
          Some (mk_url scheme rest None "" "" "" fq rq)
        else if negb rooted && via_request then None
        else if negb rooted && first_segment_colon rest then None
        else
          let triple := match strip_prefix "///" rest with Some _ => true | None => false end in
          let with_path user host rest' :=
            match set_escaped EncPath rest' with
            | Some (path, rawpath) => Some (mk_url scheme "" user host path rawpath fq rq)
            | None => None
            end in
          match strip_prefix "//" rest with
          | Some after =>
              if negb (seqb scheme "") || (negb via_request && negb triple) then
                let '(authority, rest') :=
                  match cut "/" after with
                  | Some (a, b) => (a, String "/" b)
                  | None => (after, "")
                  end in
                match parse_authority authority with
                | Some (user, host) => with_path user host rest'
                | None => None
                end
              else with_path None "" rest
          | None => with_path None "" rest
          end
    end.

(** url.go ParseRequestURI. *)
Definition parse_request_uri : string -> option url := parse_url true.

(** url.go Parse: the fragment is cut off first. *)
Definition url_parse (raw : string) : option url :=
  let '(u, frag) := match cut "#" raw with Some (u, f) => (u, f) | None => (raw, "") end in
  match parse_url false u with
  | None => None
  | Some r =>
      if seqb frag "" then Some r
      else match set_escaped EncFragment frag with
           | Some (f, rawf) =>
               Some {| u_scheme := u_scheme r; u_opaque := u_opaque r; u_user := u_user r;
                       u_host := u_host r; u_path := u_path r; u_rawpath := u_rawpath r;
                       u_forcequery := u_forcequery r; u_rawquery := u_rawquery r;
                       u_fragment := f; u_rawfragment := rawf |}
           | None => None
           end
  end.

(** url.go validEncoded. *)
Definition valid_encoded (m : mode) (s : string) : bool :=
  all_bytes (fun c => is_one_of "!$&'()*+,;=:@[]%" c || negb (should_escape m c)) s.

(** url.go EscapedPath and EscapedFragment. *)
Definition escaped_hint (m : mode) (raw dec : string) : option string :=
  if negb (seqb raw "") && valid_encoded m raw then
    match unescape m raw with
    | Some p => if seqb p dec then Some raw else None
    | None => None
    end
  else None.
(** url.go URL.EscapedPath. *)
Definition escaped_path (u : url) : string :=
  match escaped_hint EncPath (u_rawpath u) (u_path u) with
  | Some p => p
  | None => if seqb (u_path u) "*" then "*" else escape EncPath (u_path u)
  end.
(** url.go URL.EscapedFragment. *)
Definition escaped_fragment (u : url) : string :=
  match escaped_hint EncFragment (u_rawfragment u) (u_fragment u) with
  | Some f => f
  | None => escape EncFragment (u_fragment u)
  end.

(** url.go Userinfo.String. *)
Definition userinfo_string (ui : userinfo) : string :=
  match ui_password ui with
  | Some p => escape EncUserPassword (ui_name ui) +:+ ":" +:+ escape EncUserPassword p
  | None => escape EncUserPassword (ui_name ui)
  end.

(** url.go URL.String: the part before '?' and '#'. *)
Definition url_base (u : url) : string :=
  let sch := if seqb (u_scheme u) "" then "" else u_scheme u +:+ ":" in
  if negb (seqb (u_opaque u) "") then sch +:+ u_opaque u
  else
    let has_user := match u_user u with Some _ => true | None => false end in
    let auth :=
      if negb (seqb (u_scheme u) "") || negb (seqb (u_host u) "") || has_user then
        (if negb (seqb (u_host u) "") || negb (seqb (u_path u) "") || has_user
         then "//" else "")
        +:+ match u_user u with Some ui => userinfo_string ui +:+ "@" | None => "" end
        +:+ escape EncHost (u_host u)
      else "" in
    let path := escaped_path u in
    let slash :=
      match path with
      | String c _ => if negb (Ascii.eqb c "/"%char) && negb (seqb (u_host u) "") then "/" else ""
      | "" => ""
      end in
    let buf := sch +:+ auth +:+ slash in
    let dot := if seqb buf "" && first_segment_colon path then "./" else "" in
    buf +:+ dot +:+ path.

(** url.go URL.String. *)
Definition url_string (u : url) : string :=
  url_base u
  +:+ (if u_forcequery u || negb (seqb (u_rawquery u) "") then "?" +:+ u_rawquery u else "")
  +:+ (if seqb (u_fragment u) "" then "" else "#" +:+ escaped_fragment u).

(** url.go URL.Query: errors are discarded. *)
Definition url_query (u : url) : values := fst (parse_query (u_rawquery u)).

(** oauth2.go:120, assignment to RawQuery. *)
Definition set_rawquery (u : url) (q : string) : url :=
  {| u_scheme := u_scheme u; u_opaque := u_opaque u; u_user := u_user u; u_host := u_host u;
     u_path := u_path u; u_rawpath := u_rawpath u; u_forcequery := u_forcequery u;
     u_rawquery := q; u_fragment := u_fragment u; u_rawfragment := u_rawfragment u |}.
(** oauth2.go:108, assignment to Fragment. *)
Definition set_fragment_field (u : url) (f : string) : url :=
  {| u_scheme := u_scheme u; u_opaque := u_opaque u; u_user := u_user u; u_host := u_host u;
     u_path := u_path u; u_rawpath := u_rawpath u; u_forcequery := u_forcequery u;
     u_rawquery := u_rawquery u; u_fragment := f; u_rawfragment := u_rawfragment u |}.
