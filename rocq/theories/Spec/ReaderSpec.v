(** What io.Reader asks of a reader. *)
From Verif.Model Require Import Reader.

(** It never reads more than it was asked for. *)
Definition obeys {S} (rd : reader S) : Prop :=
  forall st n st' b e, rd st n = (st', b, e) -> String.length b <= n.
(** Asked for something, it does not return nothing without an error. *)
Definition progresses {S} (rd : reader S) : Prop :=
  forall st n st' b, 0 < n -> rd st n = (st', b, false) -> b <> "".

(** The reader that delivers the bytes of a string, all that are left and fit at a
    time, and fails at the end. *)
Definition string_reader : reader string := fun src n =>
  (substring n (String.length src) src, substring 0 n src, Nat.eqb (String.length src) 0).
(** The same one byte at a time, with the error together with the last byte. *)
Definition slow_reader : reader string := fun src n =>
  match n, src with
  | 0, _ => (src, "", false)
  | _, "" => ("", "", true)
  | _, String a r => (r, String a "", match r with "" => true | _ => false end)
  end%string.
