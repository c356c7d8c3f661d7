(** SHA-256 as in FIPS 180-4 and HMAC as in RFC 2104, on lists of byte values,
    independently of the model. *)
From Verif.Model Require Import GoStr.

(** ** Constants (FIPS 180-4, sections 4.2.2 and 5.3.3) *)

Definition prime (p : nat) : Prop := 1 < p /\ forall d, Nat.divide d p -> d = 1 \/ d = p.
(** [p] is the prime with exactly [n] smaller ones. *)
Definition nth_prime (n p : nat) : Prop :=
  prime p /\ exists smaller, List.NoDup smaller /\ length smaller = n /\ forall q, In q smaller <-> prime q /\ q < p.

Local Open Scope N_scope.

(** The first 32 bits of the fractional part of a square or cube root. *)
Definition square_root_bits (p k : N) : Prop := exists r, r ^ 2 <= p * 2 ^ 64 < (r + 1) ^ 2 /\ k = r mod 2 ^ 32.
Definition cube_root_bits (p k : N) : Prop := exists r, r ^ 3 <= p * 2 ^ 96 < (r + 1) ^ 3 /\ k = r mod 2 ^ 32.
Definition constant (t : nat) (k : N) : Prop := exists p, nth_prime t p /\ cube_root_bits (N.of_nat p) k.
Definition initial (i : nat) (h : N) : Prop := exists p, nth_prime i p /\ square_root_bits (N.of_nat p) h.

(** ** Operations on words of 32 bits (sections 2.2.2, 3.2 and 4.1.2) *)

Definition word_of (bit : N -> bool) : N :=
  fold_left (fun x i => x + if bit (N.of_nat i) then 2 ^ N.of_nat i else 0) (seq 0 32) 0.
Definition ROTR (n x : N) : N := word_of (fun i => N.testbit x ((i + n) mod 32)).
Definition SHR (n x : N) : N := x / 2 ^ n.
Definition plus (x y : N) : N := (x + y) mod 2 ^ 32.
Definition xor3 (x y z : N) : N := word_of (fun i => xorb (N.testbit x i) (xorb (N.testbit y i) (N.testbit z i))).
Definition Ch (x y z : N) : N := word_of (fun i => if N.testbit x i then N.testbit y i else N.testbit z i).
Definition Maj (x y z : N) : N :=
  word_of (fun i => let x := N.testbit x i in let y := N.testbit y i in let z := N.testbit z i in
                    x && y || x && z || y && z).
Definition Sigma0 (x : N) : N := xor3 (ROTR 2 x) (ROTR 13 x) (ROTR 22 x).
Definition Sigma1 (x : N) : N := xor3 (ROTR 6 x) (ROTR 11 x) (ROTR 25 x).
Definition sigma0 (x : N) : N := xor3 (ROTR 7 x) (ROTR 18 x) (SHR 3 x).
Definition sigma1 (x : N) : N := xor3 (ROTR 17 x) (ROTR 19 x) (SHR 10 x).

(** ** The computation of the hash (section 6.2.2) *)

Record variables := Vars { va : N; vb : N; vc : N; vd : N; ve : N; vf : N; vg : N; vh : N }.

(** The [t]-th word of a block, most significant byte first. *)
Definition block_word (M : list N) (t : nat) : N :=
  let byte i := nth (4 * t + i)%nat M 0 in
  byte 0%nat * 2 ^ 24 + byte 1%nat * 2 ^ 16 + byte 2%nat * 2 ^ 8 + byte 3%nat.
Definition schedule (M : list N) (W : nat -> N) : Prop :=
  (forall t, (t < 16)%nat -> W t = block_word M t) /\
  (forall t, (16 <= t < 64)%nat ->
     W t = plus (plus (sigma1 (W (t - 2)%nat)) (W (t - 7)%nat)) (plus (sigma0 (W (t - 15)%nat)) (W (t - 16)%nat))).
Definition next (K W : N) (v : variables) : variables :=
  let T1 := plus (plus (plus (plus (vh v) (Sigma1 (ve v))) (Ch (ve v) (vf v) (vg v))) K) W in
  let T2 := plus (Sigma0 (va v)) (Maj (va v) (vb v) (vc v)) in
  Vars (plus T1 T2) (va v) (vb v) (vc v) (plus (vd v) T1) (ve v) (vf v) (vg v).
Definition added (v w : variables) : variables :=
  Vars (plus (va v) (va w)) (plus (vb v) (vb w)) (plus (vc v) (vc w)) (plus (vd v) (vd w))
       (plus (ve v) (ve w)) (plus (vf v) (vf w)) (plus (vg v) (vg w)) (plus (vh v) (vh w)).
(** One block. *)
Definition hash_block (M : list N) (H H' : variables) : Prop :=
  exists (K W : nat -> N) (v : nat -> variables),
    (forall t, (t < 64)%nat -> constant t (K t)) /\ schedule M W /\
    v 0%nat = H /\ (forall t, (t < 64)%nat -> v (t + 1)%nat = next (K t) (W t) (v t)) /\
    H' = added H (v 64%nat).
Inductive hash_blocks : list (list N) -> variables -> variables -> Prop :=
| no_blocks H : hash_blocks [] H H
| one_block M r H H' H'' : hash_block M H H' -> hash_blocks r H' H'' -> hash_blocks (M :: r) H H''.

Definition initial_variables (H : variables) : Prop :=
  initial 0 (va H) /\ initial 1 (vb H) /\ initial 2 (vc H) /\ initial 3 (vd H) /\
  initial 4 (ve H) /\ initial 5 (vf H) /\ initial 6 (vg H) /\ initial 7 (vh H).

(** A number as [n] bytes, most significant first. *)
Fixpoint big_endian (n : nat) (x : N) : list N :=
  match n with O => [] | S n' => (x / 256 ^ N.of_nat n') mod 256 :: big_endian n' x end.
(** Padding (section 5.1.1): a bit 1, as few zeros as possible, and the length in
    bits. FIPS 180-4 allows less than 2^64 bits; beyond, Go counts modulo 2^64. *)
Definition padded (m p : list N) : Prop :=
  exists k, (k < 64)%nat /\ p = (m ++ 128 :: repeat 0 k ++ big_endian 8 ((8 * N.of_nat (length m)) mod 2 ^ 64))%list /\
    Nat.divide 64 (length p).
Definition digest (H : variables) : list N :=
  flat_map (big_endian 4) [va H; vb H; vc H; vd H; ve H; vf H; vg H; vh H].

Definition is_sha256 (m d : list N) : Prop :=
  exists blocks H H', padded m (concat blocks) /\ Forall (fun M => length M = 64%nat) blocks /\
    initial_variables H /\ hash_blocks blocks H H' /\ d = digest H'.

(** ** HMAC (RFC 2104, section 2), blocks of 64 bytes *)

Definition is_hmac (key text d : list N) : Prop :=
  exists k inner,
    ((length key <= 64)%nat /\ k = key \/ (64 < length key)%nat /\ is_sha256 key k) /\
    let k0 := (k ++ repeat 0 (64 - length k))%list in
    is_sha256 (map (N.lxor 0x36) k0 ++ text) inner /\
    is_sha256 (map (N.lxor 0x5c) k0 ++ inner) d.

(** The byte values of a string. *)
Definition string_bytes (s : string) : list N := map N_of_ascii (list_ascii_of_string s).
