(** net/http and mime (Go standard library 1.16) as used by /repo: requests,
    form parsing, Basic authentication and the response writer. *)
From Verif.Model Require Export Url Base64.

(** ** mime.ParseMediaType (token.go:266, introspection.go:156 and behind
    Request.ParseForm) *)

(** mime/grammar.go isTSpecial. *)
Definition is_tspecial (c : ascii) : bool :=
  is_one_of "()<>@,;:\/[]?=" c || Ascii.eqb c dquote.
(** mime/grammar.go isTokenChar. *)
Definition is_token_char (c : ascii) : bool :=
  (32 <? ord c)%N && (ord c <? 127)%N && negb (is_tspecial c).

(** mime/mediatype.go consumeToken. *)
Fixpoint consume_token (v : string) : string * string :=
  match v with
  | "" => ("", "")
  | String a r => if is_token_char a
                  then let '(t, rest) := consume_token r in (String a t, rest)
                  else ("", v)
  end.

(** The inside of a quoted-string up to the closing quote; [None] if there is
    none or a line break comes first. *)
Fixpoint consume_quoted (v : string) : option (string * string) :=
  match v with
  | "" => None
  | String a r =>
      if Ascii.eqb a dquote then Some ("", r)
      else
        let plain :=
          if Ascii.eqb a "013"%char || Ascii.eqb a "010"%char then None
          else match consume_quoted r with
               | Some (x, rest) => Some (String a x, rest)
               | None => None
               end in
        if Ascii.eqb a "\"%char then
          match r with
          | String b r1 => if is_tspecial b
                           then match consume_quoted r1 with
                                | Some (x, rest) => Some (String b x, rest)
                                | None => None
                                end
                           else plain
          | "" => plain
          end
        else plain
  end.

(** consumeValue; [None] for the result ("", v) that consumeMediaParam takes
    for a failure. *)
Definition consume_value (v : string) : option (string * string) :=
  match v with
  | "" => None
  | String a r =>
      if Ascii.eqb a dquote then consume_quoted r
      else let '(t, rest) := consume_token v in
           if seqb t "" then None else Some (t, rest)
  end.

(** consumeMediaParam; [None] is key = "". *)
Definition consume_media_param (v : string) : option (string * string * string) :=
  match strip_prefix ";" (trim_left v) with
  | None => None
  | Some r1 =>
      let '(param, r2) := consume_token (trim_left r1) in
      if seqb param "" then None
      else match strip_prefix "=" (trim_left r2) with
           | None => None
           | Some r3 => match consume_value (trim_left r3) with
                        | None => None
                        | Some (value, rest) => Some (to_lower param, value, rest)
                        end
           end
  end.

(** The loop over the parameters: [None] is the duplicate parameter error,
    [Some ok] the other outcomes. The values of parameters are not used by
    anyone and dropped. [fuel] is the length of the input plus one. *)
Fixpoint media_params (fuel : nat) (seen : list string) (v : string) : option bool :=
  match fuel with
  | O => Some false
  | S f =>
      let v' := trim_left v in
      if seqb v' "" then Some true
      else match consume_media_param v' with
           | None => Some (seqb (trim_space v') ";")
           | Some (k, _, rest) =>
               if existsb (seqb k) seen then None
               else media_params f (k :: seen) rest
           end
  end.

(** checkMediaTypeDisposition. *)
Definition media_type_ok (s : string) : bool :=
  let '(typ, rest) := consume_token s in
  if seqb typ "" then false
  else if seqb rest "" then true
  else match strip_prefix "/" rest with
       | None => false
       | Some r => let '(sub, rest') := consume_token r in
                   negb (seqb sub "") && seqb rest' ""
       end.

(** strings.ToLower where it can produce ASCII: besides A-Z the characters
    U+0130 (i) and U+212A (k). *)
Fixpoint lower_media (s : string) : string :=
  match s with
  | "" => ""
  | String a r =>
      match r with
      | String b r1 =>
          if (ord a =? 196)%N && (ord b =? 176)%N then String "i" (lower_media r1)
          else match r1 with
               | String c r2 =>
                   if (ord a =? 226)%N && (ord b =? 132)%N && (ord c =? 170)%N
                   then String "k" (lower_media r2)
                   else String (lower_byte a) (lower_media r)
               | "" => String (lower_byte a) (lower_media r)
               end
      | "" => String (lower_byte a) (lower_media r)
      end
  end.

(** mime.ParseMediaType: media type and whether err = nil. *)
Definition parse_media_type (v : string) : string * bool :=
  let '(head, tail) := match cut ";" v with
                       | Some (h, t) => (h, String ";" t)
                       | None => (v, "")
                       end in
  let mt := trim_space (lower_media head) in
  if negb (media_type_ok mt) then ("", false)
  else match media_params (S (slen tail)) [] tail with
       | None => ("", false)
       | Some ok => (mt, ok)
       end.

(** ** Requests *)

(** The parts of http.Request the code looks at. *)
Record request := {
  rq_method : string;
  rq_path : string;                 (* r.URL.Path *)
  rq_query : string;                (* r.URL.RawQuery *)
  rq_auth : string;                 (* r.Header.Get("Authorization"), "" if absent *)
  rq_ctype : string;                (* r.Header.Get("Content-Type"), "" if absent *)
  rq_body : option (string * bool); (* None: nil body; else the bytes it delivers and
                                       whether it then ends cleanly *)
  rq_preset : option values         (* r.PostForm if set before ParseForm (oauth2test) *)
}.

(** The media type request.go parsePostForm reads and token.go:252 sends. *)
Definition form_ctype := "application/x-www-form-urlencoded".
(** request.go parsePostForm: 10 MB. *)
Definition max_form_size : Z := 10485760.

(** request.go parsePostForm: values and whether err = nil. *)
Definition parse_post_form (r : request) : values * bool :=
  match rq_body r with
  | None => (∅, true)
  | Some (b, clean) =>
      let '(ct, ok) :=
        parse_media_type (if seqb (rq_ctype r) "" then "application/octet-stream"
                          else rq_ctype r) in
      if seqb ct form_ctype then
        if negb clean || (max_form_size <? Z.of_nat (slen b))%Z then (∅, false)
        else let '(vs, e) := parse_query b in (vs, ok && e)
      else (∅, ok)
  end.

(** request.go ParseForm: the methods whose body is read. *)
Definition has_form_body (m : string) : bool := seqb m "POST" || seqb m "PUT" || seqb m "PATCH".

(** [copyValues(dst, src)]: append. *)
Definition merge_values (a b : values) : values :=
  union_with (fun x y => Some (x ++ y)%list) a b.

(** r.PostForm and r.Form after ParseForm. *)
Record forms := { f_post : values; f_form : values }.

(** request.go ParseForm, for a request with r.Form = nil; [None] is an error.
    A nil body of a POST request is the error "missing form body". *)
Definition parse_form (r : request) : option forms :=
  let '(post, ok1) :=
    match rq_preset r with
    | Some v => (v, true)
    | None => if has_form_body (rq_method r)
              then match rq_body r with
                   | None => (∅, false)
                   | Some _ => parse_post_form r
                   end
              else (∅, true)
    end in
  let '(q, ok2) := parse_query (rq_query r) in
  if ok1 && ok2 then Some {| f_post := post; f_form := merge_values post q |} else None.

(** request.go parseBasicAuth. *)
Definition parse_basic_auth (auth : string) : option (string * string) :=
  match take_str 6 auth, drop_str 6 auth with
  | Some p, Some rest =>
      if equal_fold p "Basic " then
        match std_decode rest with
        | Some c => cut ":" c
        | None => None
        end
      else None
  | _, _ => None
  end.

(** request.go BasicAuth. *)
Definition basic_auth (r : request) : option (string * string) :=
  if seqb (rq_auth r) "" then None else parse_basic_auth (rq_auth r).

(** client.go basicAuth, behind Request.SetBasicAuth. *)
Definition basic_auth_header (user password : string) : string :=
  "Basic " +:+ std_encode (user +:+ ":" +:+ password).

(** ** Response writer *)

(** http.Header. *)
Definition headers := gmap string (list string).

(** [rw_header] is the map returned by Header(), [rw_sent] the status and the
    snapshot of the headers taken by WriteHeader, [rw_body] what was written
    since. *)
Record rw := { rw_header : headers; rw_sent : option (Z * headers); rw_body : string }.
(** A response writer nothing was written to yet. *)
Definition new_rw : rw := {| rw_header := ∅; rw_sent := None; rw_body := "" |}.

(** textproto.CanonicalMIMEHeaderKey. *)
Definition valid_header_byte (c : ascii) : bool :=
  is_alnum c || is_one_of "!#$%&'*+-.^_`|~" c.
(** textproto/reader.go canonicalMIMEHeaderKey: upper case at the start and after a
    hyphen, else lower case. *)
Fixpoint canonical_go (up : bool) (s : string) : string :=
  match s with
  | "" => ""
  | String a r => String (if up then upper_byte a else lower_byte a)
                         (canonical_go (Ascii.eqb a "-"%char) r)
  end.
(** textproto.CanonicalMIMEHeaderKey: keys with other bytes are kept. *)
Definition canonical_key (k : string) : string :=
  if all_bytes valid_header_byte k then canonical_go true k else k.

(** Header.Set and Header.Add. *)
Definition header_set (w : rw) (k v : string) : rw :=
  {| rw_header := <[canonical_key k := [v]]> (rw_header w);
     rw_sent := rw_sent w; rw_body := rw_body w |}.
(** http.Header.Add (oauth2.go:124). *)
Definition header_add (w : rw) (k v : string) : rw :=
  {| rw_header := vadd (rw_header w) (canonical_key k) v;
     rw_sent := rw_sent w; rw_body := rw_body w |}.

(** server.go response.WriteHeader; [None] is the panic for a status outside
    100..999. *)
Definition write_header (w : rw) (code : Z) : option rw :=
  match rw_sent w with
  | Some _ => Some w
  | None => if (code <? 100)%Z || (999 <? code)%Z then None
            else Some {| rw_header := rw_header w;
                         rw_sent := Some (code, rw_header w);
                         rw_body := rw_body w |}
  end.

(** server.go bodyAllowedForStatus. *)
Definition body_allowed (code : Z) : bool :=
  negb ((100 <=? code)%Z && (code <=? 199)%Z) && negb (code =? 204)%Z && negb (code =? 304)%Z.

(** server.go response.Write; the flag tells whether err = nil. *)
Definition write_bytes (w : rw) (b : string) : option (rw * bool) :=
  match write_header w 200 with
  | None => None
  | Some w1 =>
      match rw_sent w1 with
      | Some (code, _) =>
          if seqb b "" then Some (w1, true)
          else if body_allowed code
          then Some ({| rw_header := rw_header w1; rw_sent := rw_sent w1;
                        rw_body := rw_body w1 +:+ b |}, true)
          else Some (w1, false)
      | None => Some (w1, true)
      end
  end.

(** server.go NotFound. *)
Definition not_found (w : rw) : option rw :=
  let w1 := header_set w "Content-Type" "text/plain; charset=utf-8" in
  let w2 := header_set w1 "X-Content-Type-Options" "nosniff" in
  match write_header w2 404 with
  | None => None
  | Some w3 => match write_bytes w3 ("404 page not found" +:+ str1 "010") with
               | Some (w4, _) => Some w4
               | None => None
               end
  end.
