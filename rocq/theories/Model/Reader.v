(** io.ReadFull on any reader, and with it the generation of tokens. *)
From Verif.Model Require Export Hs256.

(** An io.Reader (package io) with states [S], called with a buffer of the given
    length: the new state, the bytes read, and whether it returned an error as well.
    Which error it was is not kept. *)
Definition reader (S : Type) : Type := S -> nat -> S * string * bool.

(** One call of Read: the length of the buffer, the bytes, whether there was an error;
    no counterpart in /repo. *)
Record read_call := { rc_asked : nat; rc_bytes : string; rc_failed : bool }.

(** io.go ReadAtLeast (Go 1.16), the loop [for n < min && err == nil], with
    [min = len(buf)] as ReadFull calls it (hs256.go:58) and [missing] bytes to go. The
    loop ends in state [st'] after the calls listed; it may also go on forever, then no
    case applies. *)
Inductive read_loop {S} (rd : reader S) : nat -> S -> list read_call -> S -> Prop :=
| loop_full st : read_loop rd 0 st [] st
| loop_failed missing st st1 b : 0 < missing -> rd st missing = (st1, b, true) ->
    read_loop rd missing st [{| rc_asked := missing; rc_bytes := b; rc_failed := true |}] st1
| loop_more missing st st1 b l st2 : 0 < missing -> rd st missing = (st1, b, false) ->
    read_loop rd (missing - slen b) st1 l st2 ->
    read_loop rd missing st ({| rc_asked := missing; rc_bytes := b; rc_failed := false |} :: l) st2.

(** What the calls left in the buffer. *)
Definition buffered (l : list read_call) : string := String.concat "" (map rc_bytes l).

(** hs256.go:53-64 [GenerateHS256Token] with [randSource] being any reader: io.go
    ReadFull drops the error if the buffer is full, and reports one otherwise. The
    result, the calls made and the last state; [None] is an error. *)
Inductive generates {S} (rd : reader S) (secret : string) (length : Z) (st : S) :
  option hs_token -> list read_call -> S -> Prop :=
| generates_token l st' : (0 <= length)%Z -> read_loop rd (Z.to_nat length) st l st' ->
    (length <= Z.of_nat (slen (buffered l)))%Z ->
    generates rd secret length st (Some (token_from_key secret (buffered l))) l st'
| generates_error l st' : (0 <= length)%Z -> read_loop rd (Z.to_nat length) st l st' ->
    (Z.of_nat (slen (buffered l)) < length)%Z ->
    generates rd secret length st None l st'.
