(** The numbers of encoding/json (Go standard library 1.16): strconv.ParseFloat
    on a JSON number literal, as decode.go convertNumber calls it for a value of
    type interface{}, and encode.go floatEncoder. They stand behind the field
    Extra of IntrospectionResponse (introspection.go:77) and behind
    oauth2test/utils.go:56-59. *)
From Verif.Model Require Export GoStr.
Local Open Scope Z_scope.

(** Longest run of digits. *)
Fixpoint take_digits (s : string) : string * string :=
  match s with
  | "" => ("", "")
  | String a r => if is_digit a then let '(d, rest) := take_digits r in (String a d, rest)
                  else ("", s)
  end.

(** The value of a string of decimal digits (strconv.ParseUint without the overflow
    check, see parse_int64). *)
Fixpoint dec_value (s : string) (acc : N) : option N :=
  match s with
  | "" => Some acc
  | String a r => if is_digit a then dec_value r (acc * 10 + (ord a - 48))%N else None
  end.

(** ** Values *)

(** A finite float64. Its absolute value is [f_mant] times two to the power of
    [f_index - 1074]; [f_index] is the exponent field of IEEE 754 minus one, and
    zero for subnormal numbers, whose [f_mant] is below 2^52. *)
Record float64 := { f_neg : bool; f_mant : Z; f_index : Z }.

(** A rational number num/den >= 0 to the nearest float64 without sign, to even
    on a tie; num/den counts multiples of the least positive float64, 2^-1074.
    [None] is out of range. Stands for the rounding in strconv (atof.go,
    eisel_lemire.go, decimal.go), which is documented to be exact. *)
Definition half_even (n d : Z) : Z :=
  let q := n / d in
  match 2 * (n mod d) ?= d with
  | Lt => q
  | Gt => q + 1
  | Eq => if Z.even q then q else q + 1
  end.
(** atof.go: the nearest float64, see [half_even]. *)
Definition to_float (num den : Z) : option (Z * Z) :=
  let i := Z.max 0 (Z.log2 (num / den) - 52) in
  let m := half_even num (den * 2 ^ i) in
  let '(m, i) := if m =? 2 ^ 53 then (2 ^ 52, i + 1) else (m, i) in
  if 2045 <? i then None else Some (m, i).

(** How many digits an integer has. *)
Definition ndigits (z : Z) : Z := Z.of_nat (slen (dec_of_N (Z.to_N z))).

(** The decimal q * 10^x, q >= 0 (decimal.go floatBits with its two limits on
    the position of the decimal point). *)
Definition dec_to_float (q x : Z) : option (Z * Z) :=
  if q =? 0 then Some (0, 0)
  else if 310 <? ndigits q + x then None
  else if ndigits q + x <? -330 then Some (0, 0)
  else if 0 <=? x then to_float (q * 10 ^ x * 2 ^ 1074) 1
  else to_float (q * 2 ^ 1074) (10 ^ (- x)).

(** ** Reading *)

(** atof.go readFloat: the digits of an exponent; from 10000 on they are
    passed over. *)
Fixpoint exp_value (s : string) (acc : Z) : Z :=
  match s with
  | "" => acc
  | String a r => exp_value r (if acc <? 10000 then acc * 10 + Z.of_N (ord a - 48) else acc)
  end.
(** atof.go readFloat: the exponent part of a literal. *)
Definition exponent (s : string) : Z :=
  match s with
  | String _ (String c r) =>
      if Ascii.eqb c "-"%char then - exp_value r 0
      else if Ascii.eqb c "+"%char then exp_value r 0
      else exp_value (String c r) 0
  | _ => 0
  end.
(** atof.go readFloat: sign, digits as an integer, decimal exponent. *)
Definition decimal (lit : string) : bool * Z * Z :=
  let '(neg, s) := match lit with
                   | String c r => if Ascii.eqb c "-"%char then (true, r) else (false, lit)
                   | "" => (false, "")
                   end in
  let '(i, s1) := take_digits s in
  let '(f, s2) := match s1 with
                  | String c r => if Ascii.eqb c "."%char then take_digits r else ("", s1)
                  | "" => ("", "")
                  end in
  (neg, Z.of_N (default 0%N (dec_value (i +:+ f) 0)), exponent s2 - Z.of_nat (slen f)).
(** strconv.ParseFloat(lit, 64) on a JSON number literal; [None] is ErrRange. *)
Definition parse_float (lit : string) : option float64 :=
  let '(neg, q, x) := decimal lit in
  match dec_to_float q x with
  | Some (m, i) => Some {| f_neg := neg; f_mant := m; f_index := i |}
  | None => None
  end.

(** The conversion float64(z) of an integer (oauth2test/general.go:135). *)
Definition float_of_int (z : Z) : option float64 :=
  match to_float (Z.abs z * 2 ^ 1074) 1 with
  | Some (m, i) => Some {| f_neg := z <? 0; f_mant := m; f_index := i |}
  | None => None
  end.
(** [==] on float64, which does not tell 0 from -0. *)
Definition float_eqb (f g : float64) : bool :=
  (f_mant f =? f_mant g) && (f_index f =? f_index g) &&
  (Bool.eqb (f_neg f) (f_neg g) || (f_mant f =? 0)).

(** ** Writing *)

(** The exact decimal q * 10^x of a float64 without sign (ftoa.go bigFtoa:
    d.Assign and d.Shift). *)
Definition exact_decimal (m i : Z) : Z * Z :=
  if 1074 <=? i then (m * 2 ^ (i - 1074), 0) else (m * 5 ^ (1074 - i), i - 1074).

(** Does the decimal denote this float64? *)
Definition denotes (m i q x : Z) : bool :=
  match dec_to_float q x with
  | Some (m', i') => (m' =? m) && (i' =? i)
  | None => false
  end.
(** ftoa.go roundShortest for the float64 (m, i) with exact decimal d * 10^x of
    [len] digits: try ever more digits until cutting off or cutting off and
    adding one to the last digit still denotes the number; if both do, take
    the nearer. [fuel] is the number of digits, so it never runs out. *)
Fixpoint shorten (fuel : nat) (m i d x len n : Z) : Z * Z :=
  match fuel with
  | O => (d, x)
  | S f =>
      if len <=? n then (d, x)
      else
        let u := 10 ^ (len - n) in
        let q := d / u in
        let x' := x + (len - n) in
        match denotes m i q x', denotes m i (q + 1) x' with
        | true, true => (half_even d u, x')
        | true, false => (q, x')
        | false, true => (q + 1, x')
        | false, false => shorten f m i d x len (n + 1)
        end
  end.
(** decimal.go trim: no zeros at the end. *)
Fixpoint trim_zeros (fuel : nat) (q x : Z) : Z * Z :=
  match fuel with
  | O => (q, x)
  | S f => if (q mod 10 =? 0) then trim_zeros f (q / 10) (x + 1) else (q, x)
  end.
(** ftoa.go: the shortest decimal that denotes the float64 (m, i), m > 0. *)
Definition shortest (m i : Z) : Z * Z :=
  let '(d, x) := exact_decimal m i in
  let len := ndigits d in
  let '(q, x') := shorten (Z.to_nat len) m i d x len 1 in
  trim_zeros (Z.to_nat (ndigits q)) q x'.

(** A string of zeros. *)
Fixpoint zeros (n : nat) : string :=
  match n with O => "" | S k => String "0" (zeros k) end.
(** ftoa.go fmtF, all digits: q * 10^x without exponent. *)
Definition fmt_f (q x : Z) : string :=
  let ds := dec_of_N (Z.to_N q) in
  let dp := Z.of_nat (slen ds) + x in
  if 0 <=? x then ds +:+ zeros (Z.to_nat x)
  else if 0 <? dp then
    String.substring 0 (Z.to_nat dp) ds +:+ "." +:+ String.substring (Z.to_nat dp) (Z.to_nat (- x)) ds
  else "0." +:+ zeros (Z.to_nat (- dp)) +:+ ds.
(** ftoa.go fmtE, all digits, with the exponent as cleaned up in encode.go
    floatEncoder (e-09 becomes e-9; a positive exponent is at least 21). *)
Definition fmt_e (q x : Z) : string :=
  let ds := dec_of_N (Z.to_N q) in
  let e := Z.of_nat (slen ds) + x - 1 in
  match ds with
  | String a r => String a (if seqb r "" then "" else "." +:+ r)
  | "" => ""
  end +:+ "e" +:+ (if e <? 0 then "-" else "+") +:+ dec_of_N (Z.to_N (Z.abs e)).

(** [<] on the absolute values. *)
Definition float_ltb (m i m' i' : Z) : bool := (i <? i') || ((i =? i') && (m <? m')).
(** encode.go floatEncoder: the literal of a float64. The constants are the
    float64 values of 1e-6 and 1e21. *)
Definition format_float (f : float64) : string :=
  (if f_neg f then "-" else "") +:+
  (if f_mant f =? 0 then "0"
   else
     let '(q, x) := shortest (f_mant f) (f_index f) in
     if float_ltb (f_mant f) (f_index f) 4722366482869645 1002
        || negb (float_ltb (f_mant f) (f_index f) 7629394531250000 1091)
     then fmt_e q x else fmt_f q x).
