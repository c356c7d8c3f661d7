(** Vocabulary for what a request says and what a response shows. *)
From Verif.Model Require Import Server.
From Verif.Spec Require Import ScopeSpec WireSpec.

(** ** Responses as they leave the server *)
Definition status (w : rw) : Z := match rw_sent w with Some (c, _) => c | None => 0%Z end.
Definition header_values (w : rw) (k : string) : list string :=
  match rw_sent w with Some (_, h) => default [] (h !! k) | None => [] end.

(** The body is a JSON object with these members, all of different names. *)
Definition json_object (w : rw) (o : list (string * json)) : Prop :=
  json_parse (rw_body w) = Some (JObj o) /\ NoDup (map fst o).

(** An error document (RFC 6749 section 5.2). *)
Definition error_document (w : rw) (code : Z) (name : string) : Prop :=
  status w = code /\ header_values w "Location" = [] /\
  exists o, json_object w o /\ In ("error", JStr name) o.

(** ** Requests *)

(** The first value of a parameter, the body coming before the query
    (http.Request.FormValue); "" if there is none. *)
Definition form_param (r : request) (k : string) : string :=
  match parse_form r with Some f => vget (f_form f) k | None => "" end.
(** The first value in the body (http.Request.PostFormValue). *)
Definition body_param (r : request) (k : string) : string :=
  match parse_form r with Some f => vget (f_post f) k | None => "" end.

(** The query string decodes without error. *)
Definition well_formed_query (q : string) : Prop := exists v, parse_query q = (v, true).

(** Requests that differ at most in the query of the URL. *)
Definition same_but_url_query (r1 r2 : request) : Prop :=
  rq_method r1 = rq_method r2 /\ rq_path r1 = rq_path r2 /\ rq_auth r1 = rq_auth r2 /\
  rq_ctype r1 = rq_ctype r2 /\ rq_body r1 = rq_body r2 /\ rq_preset r1 = rq_preset r2.

(** What a client that sent [st] should get back. *)
Definition echo (st : string) : list string := if decide (st = "") then [] else [st].

(** Token requests with the same meaning: all fields equal, the scopes having
    the same items (a nil and an empty slice are not distinguished). *)
Definition same_token_request (q q' : token_request) : Prop :=
  tq_grant_type q' = tq_grant_type q /\ items (tq_scope q') = items (tq_scope q) /\
  tq_client_id q' = tq_client_id q /\ tq_client_secret q' = tq_client_secret q /\
  tq_username q' = tq_username q /\ tq_password q' = tq_password q /\
  tq_refresh_token q' = tq_refresh_token q /\ tq_redirect_uri q' = tq_redirect_uri q /\
  tq_code q' = tq_code q.

(** A body net/http reads completely (10 MiB). *)
Definition fits_form_limit (r : request) : Prop :=
  match rq_body r with Some (b, _) => (Z.of_nat (String.length b) <= 10485760)%Z | None => True end.

(** A form with one value per key, as a client would send it. *)
Definition encoded_form (m : gmap string string) : string :=
  encode_values (fmap (fun x => [x]) m).
Definition form_post (path auth : string) (m : gmap string string) : request :=
  {| rq_method := "POST"; rq_path := path; rq_query := ""; rq_auth := auth;
     rq_ctype := "application/x-www-form-urlencoded"; rq_body := Some (encoded_form m, true);
     rq_preset := None |}.

(** A URI scheme (RFC 3986 section 3.1). *)
Definition letter (a : ascii) : Prop :=
  let n := N_of_ascii a in (65 <= n <= 90)%N \/ (97 <= n <= 122)%N.
Definition scheme_name (s : string) : Prop :=
  exists a r, s = String a r /\ letter a /\
  forall b, In b (list_ascii_of_string r) ->
    letter b \/ (48 <= N_of_ascii b <= 57)%N \/ In b ["+"; "-"; "."]%char.

(** Requests that differ at most in the redirect URI. *)
Definition same_but_redirect (r r' : request) : Prop :=
  rq_method r' = rq_method r /\ rq_auth r' = rq_auth r /\ (exists f, parse_form r' = Some f) /\
  forall k, k <> "redirect_uri" -> form_param r' k = form_param r k /\ body_param r' k = body_param r k.
(** "scheme://authority" and nothing after it. *)
Definition bare_origin (u : string) : Prop :=
  exists scheme authority, scheme_name scheme /\ u = scheme +:+ "://" +:+ authority /\
    without "/" authority /\ without "?" authority.
(** No control byte and no "%". *)
Definition plain_fragment (f : string) : Prop :=
  forall b, In b (list_ascii_of_string f) -> (32 <= N_of_ascii b)%N /\ N_of_ascii b <> 127%N /\ b <> "%"%char.
