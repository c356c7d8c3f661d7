(** hs256.go *)
From Verif.Model Require Export Base64 Sha256.

(** hs256.go:19-22. *)
Record hs_token := { hs_key : string; hs_signature : string }.

(** hs256.go:29-46 [HS256TokenFromKey]. *)
Definition token_from_key (secret key : string) : hs_token :=
  {| hs_key := key; hs_signature := hmac_sha256 secret key |}.

(** [io.ReadFull(randSource, buf)] with [len(buf) = n], hs256.go:58. The
    source is the string of bytes it delivers before failing; [None] is the
    error (io.EOF, io.ErrUnexpectedEOF or the error of the source). *)
Fixpoint read_full (n : nat) (src : string) : option (string * string) :=
  match n with
  | O => Some ("", src)
  | S n' => match src with
            | "" => None
            | String a r => match read_full n' r with
                            | Some (x, rest) => Some (String a x, rest)
                            | None => None
                            end
            end
  end.

(** Result of [GenerateHS256Token]: a token and the rest of the source, an
    error, or the panic of [make([]byte, length)] for a negative length. *)
Inductive gen_result :=
| GenOk (t : hs_token) (rest : string)
| GenErr
| GenPanic.

(** hs256.go:53-64 [GenerateHS256Token]. *)
Definition generate (secret : string) (length : Z) (src : string) : gen_result :=
  if (length <? 0)%Z then GenPanic
  else match read_full (Z.to_nat length) src with
       | None => GenErr
       | Some (key, rest) => GenOk (token_from_key secret key) rest
       end.

(** hs256.go:72-79 [MustGenerateHS256Token]; [None] is a panic. *)
Definition must_generate (secret : string) (length : Z) (src : string)
  : option (hs_token * string) :=
  match generate secret length src with
  | GenOk t rest => Some (t, rest)
  | GenErr | GenPanic => None
  end.

(** hs256.go:125-127 [Equal]: [hmac.Equal] is equality of byte strings
    (the steps it takes are in Timing.v). *)
Definition hs_equal (t : hs_token) (signature : string) : bool :=
  seqb (hs_signature t) signature.

(** hs256.go:116-118 [Valid]. *)
Definition hs_valid (t : hs_token) (secret : string) : bool :=
  hs_equal (token_from_key secret (hs_key t)) (hs_signature t).

(** The four error messages of [ParseHS256Token]. *)
Definition err_segments := "a token must have two segments separated by a dot".
(** hs256.go:92. *)
Definition err_key_b64 := "token key is not base64 encoded".
(** hs256.go:98. *)
Definition err_sig_b64 := "token signature is not base64 encoded".
(** hs256.go:109. *)
Definition err_invalid := "invalid token supplied".

(** hs256.go:82-113 [ParseHS256Token]. *)
Definition parse_token (secret str : string) : hs_token + string :=
  match split "." str with
  | [s0; s1] =>
      match rawurl_decode s0 with
      | None => inr err_key_b64
      | Some key =>
          match rawurl_decode s1 with
          | None => inr err_sig_b64
          | Some signature =>
              let token := {| hs_key := key; hs_signature := signature |} in
              if negb (hs_valid token secret) then inr err_invalid
              else inl token
          end
      end
  | _ => inr err_segments
  end.

(** hs256.go:130-132 [KeyString]. *)
Definition key_string (t : hs_token) : string := rawurl_encode (hs_key t).
(** hs256.go:135-137 [SignatureString]. *)
Definition signature_string (t : hs_token) : string := rawurl_encode (hs_signature t).
(** hs256.go:140-142 [String]. *)
Definition token_string (t : hs_token) : string :=
  key_string t +:+ "." +:+ signature_string t.
