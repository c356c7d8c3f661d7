(** C75: form data. *)
From Verif.Model Require Import Server.
From Verif.Spec Require Import WireSpec RequestSpec ServerSpec FormSpec FormCases.
From Verif.Proof Require Import MediaProofs FormProofs EndpointProofs FormCase.

(** C75. A text has at most one reading. *)
Theorem C75_one_reading : forall q l l', says q l -> says q l' -> l = l'.
Proof. exact c75_one_reading. Qed.
Print Assumptions C75_one_reading.

(** A content type names a type exactly as RFC 2045 says, with some liberties. *)
Theorem C75_content_type : forall t ct,
  parse_media_type ct = (t, true) <-> typed t ct.
Proof. exact content_type_spec. Qed.
Print Assumptions C75_content_type.

(** The parameters are those that the client wrote, the body before the query. *)
Theorem C75_fields : forall r body query k, carries r body query ->
  body_param r k = written k body /\ form_param r k = written k (body ++ query).
Proof. exact c75_fields. Qed.
Print Assumptions C75_fields.

(** The parsers of the package accept a request exactly if the fields allow it, and
    return them. *)
Theorem C75_token_request : forall r body query q, carries r body query ->
  parse_token_request r = inl q <-> token_fields r body q.
Proof. exact c75_token. Qed.
Print Assumptions C75_token_request.

Theorem C75_authorization_request : forall r body query q, carries r body query ->
  parse_authorization_request r = inl q <-> authorization_fields r (body ++ query) q.
Proof. exact c75_authorization. Qed.
Print Assumptions C75_authorization_request.

Theorem C75_lookup_requests : forall r body query q, carries r body query ->
  (parse_introspection_request r = inl q <-> lookup_fields r body q) /\
  (parse_revocation_request r = inl q <-> lookup_fields r body q).
Proof. exact c75_lookup. Qed.
Print Assumptions C75_lookup_requests.

(** If the fields cannot be told, every endpoint refuses and nothing changes. *)
Theorem C75_unreadable : forall ev s r name, unreadable r -> endpoint r name ->
  In name ["authorize"; "token"; "introspect"; "revoke"] ->
  exists w, serve_http ev s r new_rw = (s, Some w) /\ error_document w 400 "invalid_request".
Proof. exact c75_unreadable_at. Qed.
Print Assumptions C75_unreadable.

(** There is no third kind of request, no request is of both kinds, and none has two
    readings. *)
Theorem C75_readable_or_not : forall r, rq_preset r = None ->
  (unreadable r \/ exists body query, carries r body query) /\
  (forall body query, carries r body query -> ~ unreadable r) /\
  (forall body query body' query', carries r body query -> carries r body' query' -> body = body' /\ query = query').
Proof. exact c75_readable. Qed.
Print Assumptions C75_readable_or_not.

Example C75_case :
  carries form_case form_case_body form_case_query /\
  carries (form_request "a=1" "application/json" "{}" false) [] [("a", "1")] /\
  (exists q, parse_token_request form_case = inl q /\ tq_username q = "user 1" /\ tq_password q = "pw=1") /\
  unreadable (form_request "" typed_case "a=%zz" true) /\
  unreadable (form_request "" typed_case "a=1" false) /\
  unreadable (form_request "a=%4" typed_case "a=1" true) /\
  unreadable (form_request "" ill_typed_case1 "a=1" true) /\
  unreadable (form_request "" ill_typed_case2 "{}" true).
Proof.
  split; [exact case_carries|]. split; [exact case_carries_nothing|]. split; [exact case_token|].
  exact case_unreadable.
Qed.
Example C75_case_content_type :
  typed form_type typed_case /\ typed "text/html" "text/HTML" /\ typed "attachment" " attachment;" /\
  ill_typed ill_typed_case1 /\ ill_typed ill_typed_case2 /\ ill_typed "text/" /\ ill_typed "text/html; charset=""utf-8".
Proof. exact content_type_cases. Qed.
