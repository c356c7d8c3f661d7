(** Number literals (RFC 8259, section 6), their values, and float64. *)
From Coq Require Import QArith Qabs.
From Verif.Model Require Import Float.
Local Open Scope Q_scope.

(** ** Literals *)

Definition decimal_digit (a : ascii) : Prop := (48 <= N_of_ascii a <= 57)%N.
Definition decimal_digits (s : string) : Prop :=
  s <> "" /\ forall a, In a (list_ascii_of_string s) -> decimal_digit a.
(** The integer a string of digits stands for. *)
Definition digits_value (s : string) : Z :=
  fold_left (fun v a => 10 * v + (Z.of_N (N_of_ascii a) - 48))%Z (list_ascii_of_string s) 0%Z.

Definition number_int (s : string) : Prop :=
  s = "0" \/ (decimal_digits s /\ forall r, s <> String "0" r).
(** A fraction part with the digits [d]. *)
Definition number_frac (s d : string) : Prop :=
  (s = "" /\ d = "") \/ (decimal_digits d /\ s = String "." d).
(** An exponent part with the exponent [x]. *)
Definition number_exp (s : string) (x : Z) : Prop :=
  (s = "" /\ x = 0%Z) \/
  exists e sign d, In e ["e"; "E"]%char /\ In sign [""; "+"; "-"] /\ decimal_digits d /\ s = String e (sign +:+ d) /\
    x = if decide (sign = "-") then (- digits_value d)%Z else digits_value d.
(** The literal [s] stands for the number [v]. *)
Definition number (s : string) (v : Q) : Prop :=
  exists sign i f d e x, In sign [""; "-"] /\ number_int i /\ number_frac f d /\ number_exp e x /\
    s = sign +:+ i +:+ f +:+ e /\
    v == (if decide (sign = "-") then -1 else 1) * inject_Z (digits_value (i +:+ d)) * 10 ^ (x - Z.of_nat (String.length d)).
Definition json_number (s : string) : Prop := exists v, number s v.

(** ** float64 (IEEE 754 binary64, finite) *)

(** 53 binary digits, the last of which counts at least 2^-1074 and at most
    2^971; with fewer digits only at the lower end. *)
Definition float_ok (f : float64) : Prop :=
  (0 <= f_mant f < 2 ^ 53 /\ 0 <= f_index f <= 2045 /\ (2 ^ 52 <= f_mant f \/ f_index f = 0))%Z.
Definition float_value (f : float64) : Q :=
  (if f_neg f then -1 else 1) * inject_Z (f_mant f) * 2 ^ (f_index f - 1074).
(** No float64 is nearer to [v]; if another one is equally near, the last
    digit of [f] is 0. *)
Definition nearest (v : Q) (f : float64) : Prop :=
  float_ok f /\ forall g, float_ok g ->
    Qabs (v - float_value f) <= Qabs (v - float_value g) /\
    (Qabs (v - float_value f) == Qabs (v - float_value g) -> ~ float_value g == float_value f -> Z.even (f_mant f) = true).
(** Not beyond the greatest float64 by half of its last digit. *)
Definition float_range (v : Q) : Prop := Qabs v < inject_Z (2 ^ 1024 - 2 ^ 970).

(** The literal [s] is read as the float64 [f] (negative zero is another
    float64 than zero). *)
Definition reads_as (s : string) (f : float64) : Prop :=
  exists v, number s v /\ nearest v f /\ (f_neg f = true <-> exists r, s = String "-" r).
(** A literal in the range of float64, of at most 9000 bytes (strconv.ParseFloat
    reads longer exponents only in part). *)
Definition float_literal (s : string) : Prop :=
  exists v, number s v /\ float_range v /\ (Z.of_nat (String.length s) <= 9000)%Z.

(** ** Go integers *)

Definition int64 (z : Z) : Prop := (-9223372036854775808 <= z <= 9223372036854775807)%Z.
