(** bearer.go *)
From Verif.Model Require Export Token.

(** Result of [ParseBearerToken]; [BPanic] stands for the run-time panic of an
    out of range slice expression. *)
Inductive bearer_result := BToken (t : string) | BErr (e : error) | BPanic.

(** The error of bearer.go:34, 39 and 44. *)
Definition malformed_header := InvalidRequest "malformed authorization header".

(** bearer.go:25-51 [ParseBearerToken]. *)
Definition parse_bearer_token (r : request) : bearer_result :=
  let h := rq_auth r in
  let n := slen BearerAccessTokenType in
  if seqb h "" then BErr ProtectedResource
  else if Nat.ltb (slen h) (n + 2) then BErr malformed_header
  else match take_str n h with
  | None => BPanic
  | Some scheme =>
      if negb (equal_fold scheme BearerAccessTokenType) then BErr malformed_header
      else match slice_str n (n + 1) h with
      | None => BPanic
      | Some sp =>
          if negb (seqb sp " ") then BErr malformed_header
          else match drop_str (n + 1) h with
               | None => BPanic
               | Some token => BToken token
               end
      end
  end.

(** bearer.go:59-93 [WriteBearerError]. *)
Definition default_challenge := "realm=" +:+ str1 dquote +:+ "OAuth2" +:+ str1 dquote.
(** bearer.go:59-93 [WriteBearerError]. *)
Definition write_bearer_error (w : rw) (err : goerr) : option (rw * bool) :=
  match err with
  | GErr e =>
      if (e_status e =? 500)%Z then
        match write_header w 500 with
        | None => None
        | Some w => write_bytes w ""
        end
      else
        let params := if seqb (error_params e) "" then default_challenge else error_params e in
        let w := header_set w "WWW-Authenticate" ("Bearer " +:+ params) in
        match write_header w (e_status e) with
        | None => None
        | Some w => write_bytes w ""
        end
  | GOther =>
      match write_header w 500 with
      | None => None
      | Some w => write_bytes w ""
      end
  end.
