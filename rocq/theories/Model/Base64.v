(** encoding/base64 (Go standard library) as used by hs256.go:15
    ([base64.RawURLEncoding]) and by HTTP basic authentication
    ([base64.StdEncoding] in net/http, behind token.go:56, token.go:248,
    introspection.go:48, introspection.go:138, revocation.go:43,
    revocation.go:93). *)
From Verif.Model Require Export GoStr.
Local Open Scope N_scope.

(** The two alphabets differ in characters 62 and 63. *)
Record alphabet := { al_62 : ascii; al_63 : ascii }.
(** base64.go encodeURL, the alphabet of RawURLEncoding (hs256.go:15). *)
Definition url_alphabet : alphabet := {| al_62 := "-"; al_63 := "_" |}%char.
(** base64.go encodeStd, the alphabet of StdEncoding (HTTP basic authentication). *)
Definition std_alphabet : alphabet := {| al_62 := "+"; al_63 := "/" |}%char.

(** base64.go Encoding.encode: the character for a 6-bit value. *)
Definition enc6 (al : alphabet) (n : N) : ascii :=
  if n <? 26 then chr (65 + n)
  else if n <? 52 then chr (71 + n)        (* 'a' - 26 = 71 *)
  else if n <? 62 then chr (n - 4)         (* '0' - 52 = -4 *)
  else if n =? 62 then al_62 al else al_63 al.

(** [enc.decodeMap]. *)
Definition dec6 (al : alphabet) (a : ascii) : option N :=
  let n := ord a in
  if is_upper a then Some (n - 65)
  else if is_lower a then Some (n - 71)
  else if is_digit a then Some (n + 4)
  else if Ascii.eqb a (al_62 al) then Some 62
  else if Ascii.eqb a (al_63 al) then Some 63
  else None.

(** [EncodeToString]; [pad] is true for StdEncoding. The shifts and masks of
    the Go code are written as divisions and remainders. *)
Fixpoint b64_encode (al : alphabet) (pad : bool) (s : string) : string :=
  match s with
  | "" => ""
  | String a "" =>
      let x := ord a in
      String (enc6 al (x / 4)) (String (enc6 al (x mod 4 * 16))
        (if pad then "==" else ""))
  | String a (String b "") =>
      let x := ord a in let y := ord b in
      String (enc6 al (x / 4)) (String (enc6 al (x mod 4 * 16 + y / 16))
        (String (enc6 al (y mod 16 * 4)) (if pad then "=" else "")))
  | String a (String b (String c r)) =>
      let x := ord a in let y := ord b in let z := ord c in
      String (enc6 al (x / 4)) (String (enc6 al (x mod 4 * 16 + y / 16))
        (String (enc6 al (y mod 16 * 4 + z / 64)) (String (enc6 al (z mod 64))
          (b64_encode al pad r))))
  end.

(** The bytes of a full or partial quantum. *)
Definition q2 (v1 v2 : N) : ascii := chr (v1 * 4 + v2 / 16).
(** base64.go decodeQuantum: the second byte of a quantum. *)
Definition q3 (v2 v3 : N) : ascii := chr (v2 mod 16 * 16 + v3 / 4).
(** base64.go decodeQuantum: the third byte of a quantum. *)
Definition q4 (v3 v4 : N) : ascii := chr (v3 mod 4 * 64 + v4).

(** base64.go StdPadding. *)
Definition eq_char : ascii := "="%char.

(** [DecodeString] on input without line breaks (both encodings are not
    Strict: left-over bits are ignored). [None] is an error. With padding an
    incomplete last quantum is an error; without it, padding characters are. *)
Fixpoint b64_decode_clean (al : alphabet) (pad : bool) (s : string) : option string :=
  match s with
  | "" => Some ""
  | String a r1 =>
      match dec6 al a with
      | None => None
      | Some v1 =>
      match r1 with
      | "" => None
      | String b r2 =>
      match dec6 al b with
      | None => None
      | Some v2 =>
      match r2 with
      | "" => if pad then None else Some (str1 (q2 v1 v2))
      | String c r3 =>
      match dec6 al c with
      | None =>
          if pad && Ascii.eqb c eq_char && seqb r3 (str1 eq_char)
          then Some (str1 (q2 v1 v2)) else None
      | Some v3 =>
      match r3 with
      | "" => if pad then None else Some (String (q2 v1 v2) (str1 (q3 v2 v3)))
      | String d r4 =>
      match dec6 al d with
      | None =>
          if pad && Ascii.eqb d eq_char && seqb r4 ""
          then Some (String (q2 v1 v2) (str1 (q3 v2 v3))) else None
      | Some v4 =>
          match b64_decode_clean al pad r4 with
          | Some t => Some (String (q2 v1 v2) (String (q3 v2 v3) (String (q4 v3 v4) t)))
          | None => None
          end
      end end end end end end end
  end.

(** The decoder skips '\r' and '\n' wherever they occur. *)
Definition not_newline (a : ascii) : bool := negb ((ord a =? 10) || (ord a =? 13)).
(** base64.go DecodeString. *)
Definition b64_decode (al : alphabet) (pad : bool) (s : string) : option string :=
  b64_decode_clean al pad (sfilter not_newline s).

(** hs256.go:15 [var b64 = base64.RawURLEncoding]. *)
Definition rawurl_encode : string -> string := b64_encode url_alphabet false.
(** hs256.go:90, 96 [b64.DecodeString]. *)
Definition rawurl_decode : string -> option string := b64_decode url_alphabet false.
(** net/http client.go basicAuth: base64.StdEncoding.EncodeToString (behind
    token.go:248, introspection.go:138, revocation.go:93). *)
Definition std_encode : string -> string := b64_encode std_alphabet true.
(** net/http request.go parseBasicAuth: base64.StdEncoding.DecodeString (behind
    token.go:56, introspection.go:48, revocation.go:43). *)
Definition std_decode : string -> option string := b64_decode std_alphabet true.
