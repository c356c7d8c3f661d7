(** crypto/sha256 and crypto/hmac (Go standard library), used at hs256.go:31.
    FIPS 180-4 and RFC 2104, on byte strings. *)
From Verif.Model Require Export GoStr.
Local Open Scope N_scope.

(** The residue modulo 2^32 (w32_mod in Proof/HsFacts.v). *)
Definition w32 (x : N) : N := N.land x 4294967295.
(** Addition of uint32. *)
Definition add32 (x y : N) : N := w32 (x + y).
(** bits.RotateLeft32(x, -n), FIPS 180-4 section 2.2.2. *)
Definition rotr (n x : N) : N := N.lor (N.shiftr x n) (w32 (N.shiftl x (32 - n))).
(** FIPS 180-4 section 3.2, SHR. *)
Definition shr (n x : N) : N := N.shiftr x n.
(** Complement of a uint32. *)
Definition not32 (x : N) : N := N.lxor x 4294967295.

(** FIPS 180-4 (4.2), sha256block.go. *)
Definition ch (x y z : N) := N.lxor (N.land x y) (N.land (not32 x) z).
(** FIPS 180-4 (4.3), sha256block.go. *)
Definition maj (x y z : N) := N.lxor (N.lxor (N.land x y) (N.land x z)) (N.land y z).
(** FIPS 180-4 (4.4), sha256block.go. *)
Definition bsig0 x := N.lxor (N.lxor (rotr 2 x) (rotr 13 x)) (rotr 22 x).
(** FIPS 180-4 (4.5), sha256block.go. *)
Definition bsig1 x := N.lxor (N.lxor (rotr 6 x) (rotr 11 x)) (rotr 25 x).
(** FIPS 180-4 (4.6), sha256block.go. *)
Definition ssig0 x := N.lxor (N.lxor (rotr 7 x) (rotr 18 x)) (shr 3 x).
(** FIPS 180-4 (4.7), sha256block.go. *)
Definition ssig1 x := N.lxor (N.lxor (rotr 17 x) (rotr 19 x)) (shr 10 x).

(** FIPS 180-4 section 4.2.2, sha256block.go [_K]. *)
Definition k256 : list N := [
  0x428a2f98; 0x71374491; 0xb5c0fbcf; 0xe9b5dba5; 0x3956c25b; 0x59f111f1; 0x923f82a4; 0xab1c5ed5;
  0xd807aa98; 0x12835b01; 0x243185be; 0x550c7dc3; 0x72be5d74; 0x80deb1fe; 0x9bdc06a7; 0xc19bf174;
  0xe49b69c1; 0xefbe4786; 0x0fc19dc6; 0x240ca1cc; 0x2de92c6f; 0x4a7484aa; 0x5cb0a9dc; 0x76f988da;
  0x983e5152; 0xa831c66d; 0xb00327c8; 0xbf597fc7; 0xc6e00bf3; 0xd5a79147; 0x06ca6351; 0x14292967;
  0x27b70a85; 0x2e1b2138; 0x4d2c6dfc; 0x53380d13; 0x650a7354; 0x766a0abb; 0x81c2c92e; 0x92722c85;
  0xa2bfe8a1; 0xa81a664b; 0xc24b8b70; 0xc76c51a3; 0xd192e819; 0xd6990624; 0xf40e3585; 0x106aa070;
  0x19a4c116; 0x1e376c08; 0x2748774c; 0x34b0bcb5; 0x391c0cb3; 0x4ed8aa4a; 0x5b9cca4f; 0x682e6ff3;
  0x748f82ee; 0x78a5636f; 0x84c87814; 0x8cc70208; 0x90befffa; 0xa4506ceb; 0xbef9a3f7; 0xc67178f2 ].

(** The eight words of digest.h in sha256.go. *)
Record hstate := HS { ha : N; hb : N; hc : N; hd : N; he : N; hf : N; hg : N; hh : N }.

(** FIPS 180-4 section 5.3.3, sha256.go init0 to init7. *)
Definition h0 : hstate :=
  HS 0x6a09e667 0xbb67ae85 0x3c6ef372 0xa54ff53a 0x510e527f 0x9b05688c 0x1f83d9ab 0x5be0cd19.

(** Message schedule, most recent word first. *)
Fixpoint extend (n : nat) (rw : list N) : list N :=
  match n with
  | O => rw
  | S n' =>
      let w i := nth (i - 1) rw 0 in
      let t := add32 (add32 (ssig1 (w 2%nat)) (w 7%nat)) (add32 (ssig0 (w 15%nat)) (w 16%nat)) in
      extend n' (t :: rw)
  end.

(** sha256block.go: sixteen big-endian words of a block. *)
Fixpoint words_of_bytes (l : list N) : list N :=
  match l with
  | a :: b :: c :: d :: r => (((a * 256 + b) * 256 + c) * 256 + d) :: words_of_bytes r
  | _ => []
  end.

(** One round of sha256block.go, FIPS 180-4 section 6.2.2 step 3. *)
Definition round (s : hstate) (kw : N * N) : hstate :=
  let t1 := add32 (add32 (add32 (hh s) (bsig1 (he s))) (add32 (ch (he s) (hf s) (hg s)) (fst kw))) (snd kw) in
  let t2 := add32 (bsig0 (ha s)) (maj (ha s) (hb s) (hc s)) in
  HS (add32 t1 t2) (ha s) (hb s) (hc s) (add32 (hd s) t1) (he s) (hf s) (hg s).

(** sha256block.go block: one 64-byte block. *)
Definition compress (h : hstate) (block : list N) : hstate :=
  let ws := rev (extend 48 (rev (words_of_bytes block))) in
  let s := fold_left round (combine k256 ws) h in
  HS (add32 (ha h) (ha s)) (add32 (hb h) (hb s)) (add32 (hc h) (hc s)) (add32 (hd h) (hd s))
     (add32 (he h) (he s)) (add32 (hf h) (hf s)) (add32 (hg h) (hg s)) (add32 (hh h) (hh s)).

(** Absorb one byte: the buffer holds the bytes of the current block, last first. *)
Definition absorb (st : hstate * list N) (b : N) : hstate * list N :=
  let buf := b :: snd st in
  if Nat.eqb (length buf) 64 then (compress (fst st) (rev buf), []) else (fst st, buf).

(** binary.BigEndian.PutUint32. *)
Definition be_bytes4 (w : N) : list N :=
  [ w / 16777216 mod 256; w / 65536 mod 256; w / 256 mod 256; w mod 256 ].

(** Zero bytes. *)
Fixpoint zeros (n : nat) : list N := match n with O => [] | S n' => 0 :: zeros n' end.

(** sha256.go checkSum: 0x80, zeros and the length in bits as 64-bit number. *)
Definition padding (len : nat) : list N :=
  let r := Nat.modulo len 64 in
  let z := if Nat.ltb r 56 then (55 - r)%nat else (119 - r)%nat in
  let bits := 8 * N.of_nat len in
  128 :: zeros z ++ be_bytes4 (bits / 4294967296 mod 4294967296) ++ be_bytes4 (bits mod 4294967296).

(** sha256.go Write and Sum on lists of byte values. *)
Definition sha256_bytes (msg : list N) : list N :=
  let h := fst (fold_left absorb (msg ++ padding (length msg)) (h0, [])) in
  be_bytes4 (ha h) ++ be_bytes4 (hb h) ++ be_bytes4 (hc h) ++ be_bytes4 (hd h) ++
  be_bytes4 (he h) ++ be_bytes4 (hf h) ++ be_bytes4 (hg h) ++ be_bytes4 (hh h).

(** The byte values of a string. *)
Definition bytes_of (s : string) : list N := map ord (list_ascii_of_string s).
(** The string of some byte values. *)
Definition of_bytes (l : list N) : string := string_of_list_ascii (map chr l).

(** sha256.Sum256. *)
Definition sha256 (s : string) : string := of_bytes (sha256_bytes (bytes_of s)).

(** [hmac.New(sha256.New, key)], [Write(msg)], [Sum(nil)]. *)
Definition hmac_key (key : list N) : list N :=
  let k := if Nat.ltb 64 (length key) then sha256_bytes key else key in
  k ++ zeros (64 - length k).
(** hmac.go Sum: the outer hash of the inner hash. *)
Definition hmac_bytes (key msg : list N) : list N :=
  let k := hmac_key key in
  sha256_bytes (map (fun b => N.lxor b 0x5c) k ++ sha256_bytes (map (fun b => N.lxor b 0x36) k ++ msg)).
(** hs256.go:31-37: hmac.New(sha256.New, key), Write(msg), Sum(nil). *)
Definition hmac_sha256 (key msg : string) : string :=
  of_bytes (hmac_bytes (bytes_of key) (bytes_of msg)).

Global Arguments sha256_bytes : simpl never.
Global Arguments hmac_sha256 : simpl never.
