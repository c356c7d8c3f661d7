(** ioutil.ReadAll and io.LimitReader on any body of a response. *)
From Verif.Model Require Export Client.

(** The error of a call of Read: none, io.EOF, or another one. *)
Inductive read_err := NoErr | EndOfFile | ReadError.

(** An io.Reader (package io) with states [S], called with a buffer of the given
    length: the new state, the bytes read and the error. *)
Definition body_reader (S : Type) : Type := S -> nat -> S * string * read_err.

(** io.go LimitedReader.Read (Go 1.16); the second component is its field [N]. *)
Definition limited {S} (rd : body_reader S) : body_reader (S * Z) := fun st n =>
  if (snd st <=? 0)%Z then (st, "", EndOfFile)
  else let '(st', b, e) := rd (fst st) (Nat.min n (Z.to_nat (snd st))) in
       ((st', (snd st - Z.of_nat (slen b))%Z), b, e).

(** io.go ReadAll (Go 1.16), which ioutil.ReadAll calls: the calls of Read until one
    returns an error, as the bytes and the last error. The lengths of the buffers
    follow from the growth of the slice in Go; here each may be any but 0. The loop may
    also go on forever, then no case applies. *)
Inductive read_all {S} (rd : body_reader S) : S -> list string -> read_err -> S -> Prop :=
| all_end n st st' b e : 0 < n -> rd st n = (st', b, e) -> e <> NoErr -> read_all rd st [b] e st'
| all_more n st st1 b l e st2 : 0 < n -> rd st n = (st1, b, NoErr) -> read_all rd st1 l e st2 ->
    read_all rd st (b :: l) e st2.

(** error.go:284, token.go:260 and introspection.go:150: the data and whether there is
    no error. *)
Definition reads_limited {S} (rd : body_reader S) (st : S) (limit : Z) (data : string) (ok : bool) (st' : S) : Prop :=
  exists l e rest, read_all (limited rd) (st, limit) l e (st', rest) /\ data = String.concat "" l /\
    ok = match e with ReadError => false | _ => true end.

(** token.go:266-274 and introspection.go:156-164. *)
Definition json_content (ctype : string) : bool :=
  let '(ct, ok) := parse_media_type ctype in ok && seqb ct "application/json".

(** token.go:258-284 [ParseTokenResponse] on a response with the given body;
    [None] is an error. *)
Definition parse_token_response_on {S} (rd : body_reader S) (st : S) (ctype : string) (limit : Z)
  (res : option token_response) : Prop :=
  exists data ok st', reads_limited rd st limit data ok st' /\
    res = if negb ok then None
          else if negb (json_content ctype) then None
          else match json_parse data with Some j => token_of_json j | None => None end.
(** introspection.go:148-174 [ParseIntrospectionResponse]. *)
Definition parse_introspection_response_on {S} (rd : body_reader S) (st : S) (ctype : string) (limit : Z)
  (res : option introspection_response) : Prop :=
  exists data ok st', reads_limited rd st limit data ok st' /\
    res = if negb ok then None
          else if negb (json_content ctype) then None
          else match json_parse data with Some j => introspection_of_json j | None => None end.
(** error.go:282-294 [ParseRequestError]; the error of ReadAll is dropped. *)
Definition parse_request_error_on {S} (rd : body_reader S) (st : S) (status limit : Z) (res : goerr) : Prop :=
  exists data ok st', reads_limited rd st limit data ok st' /\
    res = match json_parse data with
          | Some j => match error_of_json j with Some e => GErr (set_status e status) | None => GOther end
          | None => GOther
          end.
