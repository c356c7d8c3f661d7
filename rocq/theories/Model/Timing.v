(** The steps that comparing signatures and secrets takes. What a clock can
    tell of a run is taken to be the list of the branches it took and of the
    positions it read: the usual reading of constant time. Caches, the
    scheduler and the work of the machine for one step are not modelled. *)
From Verif.Model Require Export Hs256.
Local Open Scope N_scope.

(** One step: the outcome of a condition, a read at an index of a slice, or a
    block of SHA-256 (sha256block.go: loops of 16, 48 and 64 rounds without a
    branch or an index that depends on data). *)
Inductive step := Branch (b : bool) | Load (i : nat) | Block.

(** constant_time.go (crypto/subtle), ConstantTimeByteEq:
    [int((uint32(x^y) - 1) >> 31)]. *)
Definition byte_eq (x y : N) : N := N.shiftr (w32 (N.lxor x y + 4294967295)) 31.

(** constant_time.go, the loop of ConstantTimeCompare. *)
Fixpoint differences (v : N) (i : nat) (x y : list N) : N * list step :=
  match x, y with
  | a :: x', b :: y' =>
      let '(v', t) := differences (N.lor v (N.lxor a b)) (S i) x' y' in
      (v', Branch true :: Load i :: t)
  | _, _ => (v, [Branch false])
  end.

(** constant_time.go ConstantTimeCompare. *)
Definition constant_time_compare (x y : list N) : N * list step :=
  if negb (Nat.eqb (length x) (length y)) then (0, [Branch true])
  else let '(v, t) := differences 0 0 x y in (byte_eq v 0, Branch false :: t).

(** hs256.go:125-127 [Equal] by hmac.go (crypto/hmac) Equal. *)
Definition equal_steps (t : hs_token) (signature : string) : bool * list step :=
  let '(r, l) := constant_time_compare (bytes_of (hs_signature t)) (bytes_of signature) in (r =? 1, l).

(** sha256.go Write and Sum. Simplification: byte by byte, where the code
    copies as many bytes as fit into the block. *)
Definition absorb_steps (st : (hstate * list N) * list step) (b : N) : (hstate * list N) * list step :=
  let full := Nat.eqb (length (b :: snd (fst st))) 64 in
  (absorb (fst st) b, (snd st ++ Branch full :: if full then [Block] else [])%list).
(** sha256.go Sum256: the message, then the padding of checkSum. *)
Definition sha256_steps (msg : list N) : list step :=
  snd (fold_left absorb_steps (msg ++ padding (length msg)) ((h0, []), [])).

(** hmac.go New, Write and Sum. *)
Definition hmac_steps (key msg : list N) : list step :=
  let long := Nat.ltb 64 (length key) in
  let k := hmac_key key in
  let inner := (map (fun b => N.lxor b 0x36) k ++ msg)%list in
  (Branch long :: (if long then sha256_steps key else []) ++ sha256_steps inner ++
   sha256_steps (map (fun b => N.lxor b 0x5c) k ++ sha256_bytes inner))%list.

(** hs256.go:116-118 [Valid]. *)
Definition valid_steps (t : hs_token) (secret : string) : bool * list step :=
  let '(r, l) := equal_steps (token_from_key secret (hs_key t)) (hs_signature t) in
  (r, (hmac_steps (bytes_of secret) (bytes_of (hs_key t)) ++ l)%list).

(** hs256.go:105-112, the end of [ParseHS256Token]: all of it that the secret
    is used in. *)
Definition check_steps (secret key signature : string) : bool * list step :=
  let '(r, l) := valid_steps {| hs_key := key; hs_signature := signature |} secret in
  (r, (l ++ [Branch (negb r)])%list).

(** [n] bytes at a time until a difference: memequal of package runtime for
    slices of equal length. Simplification: the size of the pieces is fixed,
    where the code takes smaller ones at the end (memequal of amd64: 64 and 8
    bytes), and equal pointers are not looked at. *)
Fixpoint mem_equal (fuel n i : nat) (x y : list N) : bool * list step :=
  match fuel with
  | O => (true, [])
  | S fuel' =>
      match x with
      | [] => (true, [Branch false])
      | _ => if decide (firstn n x = firstn n y)
             then let '(r, t) := mem_equal fuel' n (i + n) (skipn n x) (skipn n y) in
                  (r, Branch true :: Load i :: Branch true :: t)
             else (false, [Branch true; Load i; Branch false])
      end
  end.

(** server.go:209, 233, 279, 300, 471 and 533: [==] of strings, as in
    [client.Secret != req.ClientSecret]. *)
Definition string_equal (n : nat) (x y : string) : bool * list step :=
  if negb (Nat.eqb (slen x) (slen y)) then (false, [Branch true])
  else let '(r, t) := mem_equal (S (slen x)) n 0 (bytes_of x) (bytes_of y) in (r, Branch false :: t).
