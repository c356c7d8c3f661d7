(** Vocabulary for what the functions of /repo do with a response writer. *)
From Verif.Model Require Import Writer.

(** The calls one after the other, up to the first panic: the writer afterwards
    and how the last call ended. *)
Fixpoint play {W} (wr : writer W) (w : W) (calls : list wcall) : W * wend :=
  match calls with
  | [] => (w, Fine)
  | c :: rest =>
      match wr w c, rest with
      | (w', Panics), _ => (w', Panics)
      | (w', e), [] => (w', e)
      | (w', _), _ => play wr w' rest
      end
  end.

Definition sets_header (c : wcall) : Prop := (exists k v, c = SetHeader k v) \/ (exists k v, c = AddHeader k v).

(** The calls of one complete answer: headers first, then the status, then the
    whole body at once, and nothing more. *)
Definition one_answer (calls : list wcall) : Prop :=
  exists headers code body, Forall sets_header headers /\ (100 <= code <= 999)%Z /\
    calls = headers ++ [WriteHeader code; WriteBody body].
(** The same without a status, which is 200 then, or without a body. *)
Definition short_answer (calls : list wcall) : Prop :=
  (exists body, calls = [WriteBody body]) \/ (exists code, (100 <= code <= 999)%Z /\ calls = [WriteHeader code]).

(** A function that writes a response makes these calls and returns the error
    of the last one. *)
Definition sends (f : forall W, writer W -> W -> W * option bool) (calls : list wcall) : Prop :=
  forall W (wr : writer W) w,
    f W wr w = (fst (play wr w calls),
                match snd (play wr w calls) with Fine => Some true | Failed => Some false | Panics => None end).
(** It writes nothing and returns an error; it may have set headers. *)
Definition gives_up (f : forall W, writer W -> W -> W * option bool) : Prop :=
  exists headers, Forall sets_header headers /\
  forall W (wr : writer W) w,
    f W wr w = (fst (play wr w headers), match snd (play wr w headers) with Panics => None | _ => Some false end).

(** A writer that panics at every call, for an example. *)
Definition panicking : writer unit := fun w _ => (w, Panics).
