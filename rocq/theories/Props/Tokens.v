(** C01 - C06: signed tokens. *)
From Verif.Model Require Import Hs256 Reader.
From Verif.Spec Require Import TokenSpec SpellingSpec ReaderSpec.
From Verif.Proof Require Import TokenProofs SpellingProofs ReaderProofs.

(** C01. Issued token strings always parse back. *)
Theorem C01_issued_tokens_parse_back : forall secret key,
  parse_token secret (token_string (token_from_key secret key))
  = inl {| hs_key := key; hs_signature := hmac_sha256 secret key |}.
Proof. exact c01_proof. Qed.
Print Assumptions C01_issued_tokens_parse_back.

(** The model of HMAC-SHA256 agrees with RFC 4231, test case 2. *)
Example C01_hmac_vector :
  bytes_of (hmac_sha256 "Jefe" "what do ya want for nothing?") =
  [0x5b; 0xdc; 0xc1; 0x46; 0xbf; 0x60; 0x75; 0x4e; 0x6a; 0x04; 0x24; 0x26; 0x08; 0x95; 0x75; 0xc7;
   0x5a; 0x00; 0x3f; 0x08; 0x9d; 0x27; 0x39; 0x83; 0x9d; 0xec; 0x58; 0xb9; 0x64; 0xec; 0x38; 0x43]%N.
Proof. vm_compute. reflexivity. Qed.
Example C01_case :
  token_string (token_from_key "secret" "0123456789abcdef")
  = "MDEyMzQ1Njc4OWFiY2RlZg.q4A3MWDZaJmzogkpH85_VRao2yUMeT7yhJv7jqpq3j8".
Proof. vm_compute. reflexivity. Qed.

(** C02. ParseHS256Token accepts exactly the authentic tokens ... *)
Theorem C02_accepts_exactly_authentic_tokens : forall secret s t,
  parse_token secret s = inl t <->
  exists s0 s1, two_segments s s0 s1 /\
    b64url_denotes s0 (hs_key t) /\ b64url_denotes s1 (hs_signature t) /\
    hs_signature t = hmac_sha256 secret (hs_key t).
Proof. exact c02_accept. Qed.
Print Assumptions C02_accepts_exactly_authentic_tokens.

(** ... and rejects the others with the error of the first check that fails. *)
Theorem C02_rejects_with_first_error : forall secret s e,
  parse_token secret s = inr e <->
  (~ (exists s0 s1, two_segments s s0 s1) /\
     e = "a token must have two segments separated by a dot") \/
  (exists s0 s1, two_segments s s0 s1 /\
     ((~ (exists k, b64url_denotes s0 k) /\ e = "token key is not base64 encoded") \/
      (exists k, b64url_denotes s0 k /\
         ((~ (exists g, b64url_denotes s1 g) /\ e = "token signature is not base64 encoded") \/
          (exists g, b64url_denotes s1 g /\ g <> hmac_sha256 secret k /\
             e = "invalid token supplied"))))).
Proof. exact c02_reject. Qed.
Print Assumptions C02_rejects_with_first_error.

Example C02_case_accept :
  parse_token "secret" "MDEyMzQ1Njc4OWFiY2RlZg.q4A3MWDZaJmzogkpH85_VRao2yUMeT7yhJv7jqpq3j8"
  = inl (token_from_key "secret" "0123456789abcdef").
Proof. vm_compute. reflexivity. Qed.
Example C02_case_reject :
  parse_token "secret" "foo" = inr "a token must have two segments separated by a dot" /\
  parse_token "secret" "f.f" = inr "token key is not base64 encoded" /\
  parse_token "secret" "Zm9v.f" = inr "token signature is not base64 encoded" /\
  parse_token "secret" "Zm9v.Zm9v" = inr "invalid token supplied" /\
  parse_token "secret" "Zm9v.Zm9v.Zm9v" = inr "a token must have two segments separated by a dot".
Proof. vm_compute. repeat split; reflexivity. Qed.

(** C03. Token identity does not depend on its spelling. *)
Theorem C03_identity_independent_of_spelling : forall secret s1 s2 t1 t2,
  parse_token secret s1 = inl t1 -> parse_token secret s2 = inl t2 ->
  (t1 = t2 <-> hs_key t1 = hs_key t2) /\
  (hs_key t1 = hs_key t2 ->
     key_string t1 = key_string t2 /\ signature_string t1 = signature_string t2 /\
     token_string t1 = token_string t2) /\
  parse_token secret (token_string t1) = inl t1 /\
  (signature_string t1 = signature_string t2 <-> hs_signature t1 = hs_signature t2) /\
  (key_string t1 = key_string t2 <-> hs_key t1 = hs_key t2).
Proof. exact c03_proof. Qed.
Print Assumptions C03_identity_independent_of_spelling.

Example C03_case :
  parse_token "secret" "MDEyMzQ1Njc4OWFiY2RlZg.q4A3MWDZaJmzogkpH85_VRao2yUMeT7yhJv7jqpq3j8"
  = inl (token_from_key "secret" "0123456789abcdef") /\
  parse_token "secret" "MDEyMzQ1Njc4OWFiY2RlZh.q4A3MWDZaJmzogkpH85_VRao2yUMeT7yhJv7jqpq3j9"
  = inl (token_from_key "secret" "0123456789abcdef").
Proof. vm_compute. split; reflexivity. Qed.

(** C04. A token has exactly one accepted spelling: false. The decoder of
    encoding/base64 ignores left-over bits and line breaks, so the strings of
    [C03_case] denote the same token. *)
Theorem C04_one_spelling_refuted : exists secret s1 s2 t,
  parse_token secret s1 = inl t /\ parse_token secret s2 = inl t /\ s1 <> s2.
Proof.
  exists "secret", "MDEyMzQ1Njc4OWFiY2RlZg.q4A3MWDZaJmzogkpH85_VRao2yUMeT7yhJv7jqpq3j8",
    "MDEyMzQ1Njc4OWFiY2RlZh.q4A3MWDZaJmzogkpH85_VRao2yUMeT7yhJv7jqpq3j9",
    (token_from_key "secret" "0123456789abcdef").
  vm_compute. repeat split; congruence.
Qed.
Print Assumptions C04_one_spelling_refuted.

(** What holds: among the accepted strings of a token exactly one has both
    segments in the canonical form of RFC 4648, namely Token.String(). Missing
    from the full claim: the code does not insist on the canonical form. *)
Theorem C04_one_canonical_spelling_partial : forall secret s t s0 s1,
  parse_token secret s = inl t -> two_segments s s0 s1 ->
  (b64url_canonical s0 (hs_key t) /\ b64url_canonical s1 (hs_signature t) <->
   s = token_string t).
Proof. exact c04_partial. Qed.
Print Assumptions C04_one_canonical_spelling_partial.

(** All spellings of a token: Token.String() with line breaks anywhere and any
    spare bits at the end of either segment. *)
Theorem C04_spellings_exact : forall secret s t,
  parse_token secret s = inl t <->
  hs_signature t = hmac_sha256 secret (hs_key t) /\
  exists s0 s1, two_segments s s0 s1 /\ respells s0 (key_string t) /\ respells s1 (signature_string t).
Proof. exact c04_exact. Qed.
Print Assumptions C04_spellings_exact.

Example C04_case :
  respells "q4A3MWDZaJmzogkpH85_VRao2yUMeT7yhJv7jqpq3j9" (signature_string (token_from_key "secret" "0123456789abcdef")).
Proof.
  right. exists (removelast (chars "q4A3MWDZaJmzogkpH85_VRao2yUMeT7yhJv7jqpq3j9")), "9"%char, "8"%char, 61, 60.
  vm_compute. repeat split; reflexivity.
Qed.

(** C05. Token generation is all or nothing. *)
Theorem C05_generation_all_or_nothing : forall secret n src,
  (0 <= n)%Z ->
  (forall key rest, src = key +:+ rest -> Z.of_nat (slen key) = n ->
     let t := {| hs_key := key; hs_signature := hmac_sha256 secret key |} in
     generate secret n src = GenOk t rest /\ must_generate secret n src = Some (t, rest)) /\
  ((Z.of_nat (slen src) < n)%Z ->
     generate secret n src = GenErr /\ must_generate secret n src = None).
Proof. exact c05_proof. Qed.
Print Assumptions C05_generation_all_or_nothing.

Theorem C05_negative_length_panics : forall secret n src, (n < 0)%Z ->
  generate secret n src = GenPanic /\ must_generate secret n src = None.
Proof. exact c05_negative. Qed.
Print Assumptions C05_negative_length_panics.

Example C05_case :
  generate "secret" 3 "abcdef" = GenOk (token_from_key "secret" "abc") "def" /\
  generate "secret" 7 "abcdef" = GenErr.
Proof. vm_compute. split; reflexivity. Qed.

(** The source may be any reader: it may deliver the bytes in pieces, and an error
    together with bytes. The result is that for the bytes it delivered. *)
Theorem C05_reader : forall S (rd : reader S) secret n st res l st', obeys rd -> generates rd secret n st res l st' ->
  (forall t, res = Some t <-> generate secret n (buffered l) = GenOk t "") /\
  (res = None <-> generate secret n (buffered l) = GenErr).
Proof. exact c05_reader. Qed.
Print Assumptions C05_reader.

(** Each call asks for exactly the bytes that are missing, the last one at the latest
    fails, and there is no token only if it did. *)
Theorem C05_reader_calls : forall S (rd : reader S) secret n st res l st', obeys rd -> generates rd secret n st res l st' ->
  (forall l1 x l2, l = (l1 ++ x :: l2)%list -> Z.of_nat (rc_asked x) = (n - Z.of_nat (slen (buffered l1)))%Z /\ 0 < rc_asked x /\
     (rc_failed x = true -> l2 = [])) /\
  (res = None -> exists l1 x, l = (l1 ++ [x])%list /\ rc_failed x = true).
Proof. exact c05_reader_calls. Qed.
Print Assumptions C05_reader_calls.

(** It comes to an end, with one result, if the reader does. *)
Theorem C05_reader_one : forall S (rd : reader S) secret n st, obeys rd -> progresses rd -> (0 <= n)%Z ->
  exists res l st', generates rd secret n st res l st' /\
    forall res' l' st'', generates rd secret n st res' l' st'' -> res' = res /\ l' = l /\ st'' = st'.
Proof. exact c05_reader_one. Qed.
Print Assumptions C05_reader_one.

(** Two tokens in a row are those drawn from one string. *)
Theorem C05_reader_twice : forall S (rd : reader S) secret n n' st t l st1 res l' st2, obeys rd ->
  generates rd secret n st (Some t) l st1 -> generates rd secret n' st1 res l' st2 ->
  generate secret n (buffered l +:+ buffered l') = GenOk t (buffered l') /\
  (forall t', res = Some t' <-> generate secret n' (buffered l') = GenOk t' "") /\
  (res = None <-> generate secret n' (buffered l') = GenErr).
Proof. exact c05_reader_twice. Qed.
Print Assumptions C05_reader_twice.

Example C05_case_readers : obeys string_reader /\ progresses string_reader /\ obeys slow_reader /\ progresses slow_reader.
Proof. destruct string_reader_good, slow_reader_good. done. Qed.
Example C05_case_slow : generates slow_reader "secret" 3 "abc" (Some (token_from_key "secret" "abc"))
  [{| rc_asked := 3; rc_bytes := "a"; rc_failed := false |}; {| rc_asked := 2; rc_bytes := "b"; rc_failed := false |};
   {| rc_asked := 1; rc_bytes := "c"; rc_failed := true |}] "".
Proof. exact slow_case. Qed.

(** C06. Signatures are 32 bytes, their strings 43 characters of the URL-safe
    alphabet. *)
Theorem C06_signature_shape : forall secret key,
  let t := token_from_key secret key in
  hs_key t = key /\ hs_signature t = hmac_sha256 secret key /\
  slen (hs_signature t) = 32 /\
  slen (signature_string t) = 43 /\
  (forall c, In c (chars (signature_string t)) -> In c (chars b64url_alphabet)) /\
  ~ In "."%char (chars (signature_string t)) /\
  signature_string t <> "".
Proof. exact c06_proof. Qed.
Print Assumptions C06_signature_shape.

(** Even of the empty key under the empty secret. *)
Example C06_case :
  signature_string (token_from_key "" "") = "thNnmggU2ex3L5XXeMNfxf8Wl8STcVZTxscSFEKSxa0" /\
  slen (signature_string (token_from_key "secret" "0123456789abcdef")) = 43.
Proof. split; vm_compute; reflexivity. Qed.
