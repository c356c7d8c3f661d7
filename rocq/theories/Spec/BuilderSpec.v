(** Vocabulary for the errors the package builds (RFC 6749 sections 4.1.2.1 and 5.2, RFC 6750
    section 3.1, RFC 7009 section 2.2.1). *)
From Verif.Model Require Import GoStr Errors Bearer.
From Verif.Spec Require Import WireSpec.

(** The errors with a description: the code, the status and what the package's function of that
    name returns. *)
Definition described (d : string) : list (string * Z * error) :=
  [("invalid_request", 400%Z, InvalidRequest d);
   ("invalid_client", 401%Z, InvalidClient d);
   ("invalid_grant", 400%Z, InvalidGrant d);
   ("invalid_scope", 400%Z, InvalidScope d);
   ("invalid_token", 401%Z, InvalidToken d);
   ("unauthorized_client", 400%Z, UnauthorizedClient d);
   ("unsupported_grant_type", 400%Z, UnsupportedGrantType d);
   ("unsupported_response_type", 400%Z, UnsupportedResponseType d);
   ("unsupported_token_type", 400%Z, UnsupportedTokenType d);
   ("access_denied", 403%Z, AccessDenied d);
   ("server_error", 500%Z, ServerError d);
   ("temporarily_unavailable", 503%Z, TemporarilyUnavailable d)].

(** The document of such an error. *)
Definition described_document (name d : string) : json :=
  JObj (("error", JStr name) :: (if decide (d = "") then [] else [("error_description", JStr d)])).

(** A text in double quotes. *)
Definition in_quotes (s : string) : string := str1 dq_char +:+ s +:+ str1 dq_char.

(** Its headers: those of every document, and a challenge if the client is to authenticate. *)
Definition described_header (name k : string) (l : list string) : Prop :=
  json_header k l \/
  (name = "invalid_client" /\ k = "Www-Authenticate" /\ l = ["Basic realm=" +:+ in_quotes "OAuth2"]).

(** The answer to a request for a protected resource: a status, a challenge and no body, and
    nothing else touched. *)
Definition challenged (w0 : rw) (e : error) (status : Z) (challenge : string) : Prop :=
  exists w h, write_bearer_error w0 (GErr e) = Some (w, true) /\ rw_sent w = Some (status, h) /\
    rw_body w = "" /\ h !! "Www-Authenticate" = Some ["Bearer " +:+ challenge] /\
    (forall k, k <> "Www-Authenticate" -> h !! k = rw_header w0 !! k).
