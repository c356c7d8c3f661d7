(** How the body of a request can arrive. *)
From Verif.Model Require Import ReadForm.

(** From the state [st] the bytes [body] arrive, in pieces that may depend on the
    buffers offered; then reading ends, cleanly or not. Either end may be reported
    together with the last piece. *)
Inductive comes {S} (rd : body_reader S) : S -> string -> bool -> Prop :=
| comes_end st (clean : bool) :
    (forall n, 0 < n -> exists st', rd st n = (st', "", if clean then EndOfFile else ReadError)) ->
    comes rd st "" clean
| comes_piece st body (clean : bool) :
    (forall n, 0 < n -> exists st' b rest e, rd st n = (st', b, e) /\ b <> "" /\ String.length b <= n /\ body = b +:+ rest /\
       (e = NoErr /\ comes rd st' rest clean \/ rest = "" /\ e = if clean then EndOfFile else ReadError)) ->
    comes rd st body clean.

(** The request with that body. *)
Definition request_with (r : request) (body : string) (clean : bool) : request :=
  {| rq_method := rq_method r; rq_path := rq_path r; rq_query := rq_query r; rq_auth := rq_auth r;
     rq_ctype := rq_ctype r; rq_body := Some (body, clean); rq_preset := rq_preset r |}.
