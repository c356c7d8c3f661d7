(** The other ways to spell a base64url text. *)
From Verif.Model Require Import GoStr.
From Verif.Spec Require Import TokenSpec.

(** The bits of the last of [n] characters that do not belong to a whole byte. *)
Definition spare_bits (n : nat) : nat :=
  match Nat.modulo n 4 with 2 => 4 | 3 => 2 | _ => 0 end.

(** [s] is the text [c], except for line breaks anywhere and for the spare
    bits of the last character. *)
Definition respells (s c : string) : Prop :=
  let rest := List.filter (fun x => negb (is_line_break x)) (chars s) in
  rest = chars c \/
  exists l x y v w, rest = l ++ [x] /\ chars c = l ++ [y] /\ sextet x v /\ sextet y w /\
    v / 2 ^ spare_bits (length rest) = w / 2 ^ spare_bits (length rest).
