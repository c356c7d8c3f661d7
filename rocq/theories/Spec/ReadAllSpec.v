(** How the body of a response can arrive. *)
From Verif.Model Require Import ReadAll.

(** It never reads more than it was asked for. *)
Definition honest {S} (rd : body_reader S) : Prop :=
  forall st n st' b e, rd st n = (st', b, e) -> String.length b <= n.

(** From the state [st] the bytes [body] arrive, in pieces that may depend on the
    buffers offered; then reading ends, cleanly or not. The end of the file may be
    reported together with the last piece. *)
Inductive arrives {S} (rd : body_reader S) : S -> string -> bool -> Prop :=
| arrives_end st (clean : bool) :
    (forall n, 0 < n -> exists st', rd st n = (st', "", if clean then EndOfFile else ReadError)) ->
    arrives rd st "" clean
| arrives_piece st body clean :
    (forall n, 0 < n -> exists st' b rest e, rd st n = (st', b, e) /\ b <> "" /\ String.length b <= n /\ body = b +:+ rest /\
       (e = NoErr /\ arrives rd st' rest clean \/ e = EndOfFile /\ rest = "" /\ clean = true)) ->
    arrives rd st body clean.

(** Some calls of Read: the bytes they return and whether one of them fails. *)
Inductive calls {S} (rd : body_reader S) : S -> string -> bool -> S -> Prop :=
| calls_none st : calls rd st "" false st
| calls_one n st st1 b e data failed st2 : rd st n = (st1, b, e) -> calls rd st1 data failed st2 ->
    calls rd st (b +:+ data) (match e with ReadError => true | _ => failed end) st2.

(** Asked for something, it does not return nothing without an error. *)
Definition advances {S} (rd : body_reader S) : Prop :=
  forall st n st' b, 0 < n -> rd st n = (st', b, NoErr) -> b <> "".

(** That many calls of Read in a row return no error. *)
Inductive keeps_on {S} (rd : body_reader S) : S -> nat -> Prop :=
| keeps_start st : keeps_on rd st 0
| keeps_more n st st1 b k : 0 < n -> rd st n = (st1, b, NoErr) -> keeps_on rd st1 k -> keeps_on rd st (Datatypes.S k).

(** The response with that body. *)
Definition response_with (status : Z) (ctype body : string) (clean : bool) : response :=
  {| rs_status := status; rs_ctype := ctype; rs_body := body; rs_clean := clean |}.

(** A body that arrives byte by byte: what comes with the last byte, and after it. *)
Definition drip (last after : read_err) : body_reader string := fun src n =>
  match n, src with
  | O, _ => (src, "", NoErr)
  | _, "" => ("", "", after)
  | _, String a "" => ("", String a "", last)
  | _, String a r => (r, String a "", NoErr)
  end.
(** A body that delivers nothing and never ends. *)
Definition stalls : body_reader unit := fun _ _ => (tt, "", NoErr).
