(** Vocabulary for the scope properties. *)
From Coq Require Import Ascii String NArith List.
From stdpp Require Import prelude strings.
Local Open Scope N_scope.

(** UTF-8 (RFC 3629). *)
Definition byte (n : N) : ascii := ascii_of_N n.
Definition utf8 (n : N) : string :=
  if n <? 0x80 then String (byte n) ""
  else if n <? 0x800 then
    String (byte (0xC0 + n / 0x40)) (String (byte (0x80 + n mod 0x40)) "")
  else if n <? 0x10000 then
    String (byte (0xE0 + n / 0x1000))
      (String (byte (0x80 + n / 0x40 mod 0x40)) (String (byte (0x80 + n mod 0x40)) ""))
  else
    String (byte (0xF0 + n / 0x40000))
      (String (byte (0x80 + n / 0x1000 mod 0x40))
        (String (byte (0x80 + n / 0x40 mod 0x40)) (String (byte (0x80 + n mod 0x40)) ""))).

Definition scalar_value (n : N) : Prop := n < 0xD800 \/ (0xE000 <= n /\ n < 0x110000).

Definition concat_all (l : list string) : string := fold_right String.append ""%string l.

Definition valid_utf8 (s : string) : Prop :=
  exists cps, Forall scalar_value cps /\ s = concat_all (map utf8 cps).

(** The code points with the Unicode property White_Space. *)
Definition white_space : list N :=
  [0x09; 0x0A; 0x0B; 0x0C; 0x0D; 0x20; 0x85; 0xA0; 0x1680;
   0x2000; 0x2001; 0x2002; 0x2003; 0x2004; 0x2005; 0x2006; 0x2007; 0x2008; 0x2009; 0x200A;
   0x2028; 0x2029; 0x202F; 0x205F; 0x3000].

Definition only_white (s : string) : Prop :=
  exists cps, Forall (fun n => In n white_space) cps /\ s = concat_all (map utf8 cps).
Definition starts_white (s : string) : Prop :=
  exists n r, In n white_space /\ s = (utf8 n +:+ r)%string.
Definition ends_white (s : string) : Prop :=
  exists n r, In n white_space /\ s = (r +:+ utf8 n)%string.
Definition has_byte (c : ascii) (s : string) : Prop := exists a b, s = (a +:+ String c b)%string.

(** A scope item as it should be: not empty, no space inside, no white space
    around. *)
Definition good_item (i : string) : Prop :=
  i <> ""%string /\ ~ has_byte " "%char i /\ ~ starts_white i /\ ~ ends_white i.
