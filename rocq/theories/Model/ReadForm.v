(** Request.ParseForm on any body of a request. *)
From Verif.Model Require Export ReadAll.

(** request.go parsePostForm (Go 1.16) on a body that is no maxBytesReader: values and
    whether err = nil. *)
Definition parse_post_form_on {S} (rd : body_reader S) (st : S) (ctype : string) (res : values * bool) : Prop :=
  let '(ct, ok) := parse_media_type (if seqb ctype "" then "application/octet-stream" else ctype) in
  if seqb ct form_ctype then
    exists data clean st', reads_limited rd st (max_form_size + 1) data clean st' /\
      res = if negb clean then (∅, false)
            else if (max_form_size <? Z.of_nat (slen data))%Z then (∅, false)
            else let '(vs, e) := parse_query data in (vs, ok && e)
  else res = (∅, ok).

(** request.go ParseForm, for a request with r.Form = nil; [None] is an error. The body
    of the request is the given reader instead of [rq_body]. *)
Definition parse_form_on {S} (rd : body_reader S) (st : S) (r : request) (res : option forms) : Prop :=
  exists post ok1,
    match rq_preset r with
    | Some v => (post, ok1) = (v, true)
    | None => if has_form_body (rq_method r) then parse_post_form_on rd st (rq_ctype r) (post, ok1)
              else (post, ok1) = (∅, true)
    end /\
    let '(q, ok2) := parse_query (rq_query r) in
    res = if ok1 && ok2 then Some {| f_post := post; f_form := merge_values post q |} else None.
