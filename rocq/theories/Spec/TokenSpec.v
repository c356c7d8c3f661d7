(** What token strings mean, independently of the model: base64url as defined
    by RFC 4648 on bit sequences, and the split at the dot. *)
From Verif.Model Require Import GoStr.

(** The characters of a string. *)
Definition chars (s : string) : list ascii := list_ascii_of_string s.

(** Position of a character in the alphabet of RFC 4648 section 5. *)
Definition b64url_alphabet : string :=
  "ABCDEFGHIJKLMNOPQRSTUVWXYZabcdefghijklmnopqrstuvwxyz0123456789-_".
Fixpoint position (c : ascii) (l : list ascii) : option nat :=
  match l with
  | [] => None
  | a :: r => if Ascii.eqb a c then Some 0
              else match position c r with Some n => Some (S n) | None => None end
  end.
Definition sextet (c : ascii) (v : nat) : Prop := position c (chars b64url_alphabet) = Some v.

(** The [n] low bits of a number, most significant first. *)
Fixpoint bits (n : nat) (v : N) : list bool :=
  match n with O => [] | S n' => N.testbit v (N.of_nat n') :: bits n' v end.
Definition bits_of_bytes (s : string) : list bool :=
  flat_map (fun c => bits 8 (N_of_ascii c)) (chars s).
Definition bits_of_sextets (vs : list nat) : list bool :=
  flat_map (fun v => bits 6 (N.of_nat v)) vs.

(** The decoder ignores line breaks; what remains must be characters of the
    alphabet, not exactly one more than a multiple of four; left-over bits are
    dropped. *)
Definition is_line_break (c : ascii) : bool :=
  Ascii.eqb c "010"%char || Ascii.eqb c "013"%char.
Definition b64url_denotes (s k : string) : Prop :=
  exists vs : list nat,
    Forall2 sextet (List.filter (fun c => negb (is_line_break c)) (chars s)) vs /\
    Nat.modulo (length vs) 4 <> 1 /\
    bits_of_bytes k = take (8 * (length vs * 6 / 8)) (bits_of_sextets vs).

(** Strict canonical encoding: no line breaks, left-over bits are zero. *)
Definition b64url_canonical (s k : string) : Prop :=
  exists (vs : list nat) (z : nat),
    Forall2 sextet (chars s) vs /\ z < 6 /\
    bits_of_sextets vs = bits_of_bytes k ++ repeat false z.

(** [s] consists of exactly the two segments [s0] and [s1]. *)
Definition two_segments (s s0 s1 : string) : Prop :=
  s = s0 +:+ "." +:+ s1 /\ ~ In "."%char (chars s0) /\ ~ In "."%char (chars s1).
