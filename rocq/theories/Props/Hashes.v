(** C86: the signature of a token is HMAC-SHA256 as in the standards. *)
From Verif.Model Require Import Sha256 Hs256.
From Verif.Spec Require Import TokenSpec HashSpec.
From Verif.Proof Require Import HashProofs.

(** C86. The model of crypto/sha256 computes the hash of FIPS 180-4, for messages of
    every length. *)
Theorem C86_sha256 : forall msg d, is_sha256 (string_bytes msg) d <-> d = string_bytes (sha256 msg).
Proof. exact c86_sha256. Qed.
Print Assumptions C86_sha256.

(** That of crypto/hmac computes the code of RFC 2104, for keys and messages of every
    length. *)
Theorem C86_hmac : forall key msg d, is_hmac (string_bytes key) (string_bytes msg) d <-> d = string_bytes (hmac_sha256 key msg).
Proof. exact c86_hmac. Qed.
Print Assumptions C86_hmac.

(** HS256TokenFromKey signs with it, ... *)
Theorem C86_from_key : forall secret key,
  is_hmac (string_bytes secret) (string_bytes key) (string_bytes (hs_signature (token_from_key secret key))).
Proof. exact c86_from_key. Qed.
Print Assumptions C86_from_key.

(** ... Valid checks it, ... *)
Theorem C86_valid : forall secret t,
  hs_valid t secret = true <-> is_hmac (string_bytes secret) (string_bytes (hs_key t)) (string_bytes (hs_signature t)).
Proof. exact c86_valid. Qed.
Print Assumptions C86_valid.

(** ... and ParseHS256Token accepts exactly the strings that carry it. *)
Theorem C86_parse : forall secret s t,
  parse_token secret s = inl t <->
  exists s0 s1, two_segments s s0 s1 /\ b64url_denotes s0 (hs_key t) /\ b64url_denotes s1 (hs_signature t) /\
    is_hmac (string_bytes secret) (string_bytes (hs_key t)) (string_bytes (hs_signature t)).
Proof. exact c86_parse. Qed.
Print Assumptions C86_parse.

(** The first example of FIPS 180-4, and RFC 4231, test cases 2 and, with a key
    longer than a block, 6. *)
Example C86_case_sha256 :
  is_sha256 [97; 98; 99]%N
    [0xba; 0x78; 0x16; 0xbf; 0x8f; 0x01; 0xcf; 0xea; 0x41; 0x41; 0x40; 0xde; 0x5d; 0xae; 0x22; 0x23;
     0xb0; 0x03; 0x61; 0xa3; 0x96; 0x17; 0x7a; 0x9c; 0xb4; 0x10; 0xff; 0x61; 0xf2; 0x00; 0x15; 0xad]%N.
Proof. apply (c86_sha256 "abc"). vm_compute. reflexivity. Qed.
Example C86_case_hmac :
  is_hmac (string_bytes "Jefe") (string_bytes "what do ya want for nothing?")
    [0x5b; 0xdc; 0xc1; 0x46; 0xbf; 0x60; 0x75; 0x4e; 0x6a; 0x04; 0x24; 0x26; 0x08; 0x95; 0x75; 0xc7;
     0x5a; 0x00; 0x3f; 0x08; 0x9d; 0x27; 0x39; 0x83; 0x9d; 0xec; 0x58; 0xb9; 0x64; 0xec; 0x38; 0x43]%N.
Proof. apply c86_hmac. vm_compute. reflexivity. Qed.
Example C86_case_long_key :
  is_hmac (repeat 0xaa%N 131) (string_bytes "Test Using Larger Than Block-Size Key - Hash Key First")
    [0x60; 0xe4; 0x31; 0x59; 0x1e; 0xe0; 0xb6; 0x7f; 0x0d; 0x8a; 0x26; 0xaa; 0xcb; 0xf5; 0xb7; 0x7f;
     0x8e; 0x0b; 0xc6; 0x21; 0x37; 0x28; 0xc5; 0x14; 0x05; 0x46; 0x04; 0x0f; 0x0e; 0xe3; 0x7f; 0x54]%N.
Proof.
  replace (repeat 0xaa%N 131) with (string_bytes (of_bytes (repeat 0xaa%N 131))) by (vm_compute; reflexivity).
  apply c86_hmac. vm_compute. reflexivity.
Qed.
