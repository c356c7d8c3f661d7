(** C87 and C88: what running time can tell. *)
From Verif.Model Require Import Timing.
From Verif.Spec Require Import TokenSpec TimingSpec.
From Verif.Proof Require Import TimingProofs.

(** C87: the comparison gives the right result. *)
Theorem C87_equal : forall t s, (fst (equal_steps t s) = true <-> hs_signature t = s) /\ fst (equal_steps t s) = hs_equal t s.
Proof. exact c87_equal. Qed.
Print Assumptions C87_equal.

(** C87: its steps depend on the lengths only, not on whether or where the
    signatures differ. *)
Theorem C87_equal_steps : forall t t' s s', slen (hs_signature t) = slen (hs_signature t') -> slen s = slen s' ->
  snd (equal_steps t s) = snd (equal_steps t' s').
Proof. exact c87_equal_steps. Qed.
Print Assumptions C87_equal_steps.

Example C87_case_equal :
  let t := {| hs_key := "k"; hs_signature := "0123456789" |} in
  equal_steps t "0123456789" = (true, snd (equal_steps t "x123456789")) /\
  equal_steps t "x123456789" = (false, snd (equal_steps t "012345678x")) /\
  length (snd (equal_steps t "012345678x")) = 22%nat /\
  snd (equal_steps t "012345678") <> snd (equal_steps t "012345678x").
Proof. vm_compute. repeat split; try reflexivity. discriminate. Qed.

(** C87: the same for Valid, including the computation of the signature. *)
Theorem C87_valid : forall t secret, fst (valid_steps t secret) = hs_valid t secret.
Proof. exact c87_valid. Qed.
Print Assumptions C87_valid.

Theorem C87_valid_steps : forall t t' secret secret', slen (hs_key t) = slen (hs_key t') ->
  slen (hs_signature t) = slen (hs_signature t') -> slen secret = slen secret' ->
  snd (valid_steps t secret) = snd (valid_steps t' secret').
Proof. exact c87_valid_steps. Qed.
Print Assumptions C87_valid_steps.

(** C87: the check at the end of ParseHS256Token decides whether a token is
    accepted. *)
Theorem C87_parse : forall secret str s0 s1 key signature, two_segments str s0 s1 ->
  b64url_denotes s0 key -> b64url_denotes s1 signature ->
  (exists t, parse_token secret str = inl t) <-> fst (check_steps secret key signature) = true.
Proof. exact c87_parse. Qed.
Print Assumptions C87_parse.

(** C87: and all refusals take the same steps, whatever the secret. *)
Theorem C87_forgeries : forall secret secret' key key' signature signature',
  slen secret = slen secret' -> slen key = slen key' -> slen signature = slen signature' ->
  fst (check_steps secret key signature) = fst (check_steps secret' key' signature') ->
  snd (check_steps secret key signature) = snd (check_steps secret' key' signature').
Proof. exact c87_forgeries. Qed.
Print Assumptions C87_forgeries.

Example C87_case_forgeries :
  let right := hs_signature (token_from_key "secret" "key") in
  let near := (substring 0 31 right +:+ "x")%string in
  let far := ("x" +:+ substring 1 31 right)%string in
  check_steps "secret" "key" right = (true, snd (check_steps "secret" "key" right)) /\
  fst (check_steps "secret" "key" near) = false /\
  check_steps "secret" "key" near = check_steps "secret" "key" far /\
  length (List.filter (fun x => match x with Block => true | _ => false end) (snd (check_steps "secret" "key" near))) = 4%nat.
Proof. vm_compute. repeat split; reflexivity. Qed.

(** C88: comparison of strings, as the server uses it for client secrets and
    passwords, gives the right result. *)
Theorem C88_equal : forall n x y, (0 < n)%nat -> fst (string_equal n x y) = true <-> x = y.
Proof. exact c88_equal. Qed.
Print Assumptions C88_equal.

(** C88: but two wrong secrets of the right length can be told apart, however
    many bytes are compared at once. *)
Theorem C88_secrets_refuted : forall n, (0 < n)%nat -> exists x x' y,
  slen x = slen y /\ slen x' = slen y /\ x <> y /\ x' <> y /\
  snd (string_equal n x y) <> snd (string_equal n x' y).
Proof. exact c88_refuted. Qed.
Print Assumptions C88_secrets_refuted.

(** C88: what holds: of a secret of another length nothing is told but that. *)
Theorem C88_lengths : forall n x x' y, slen x <> slen y -> slen x' <> slen y -> string_equal n x y = string_equal n x' y.
Proof. exact c88_lengths. Qed.
Print Assumptions C88_lengths.

(** C88: and of one of the right length exactly the piece in which it differs
    first. *)
Theorem C88_secrets_partial : forall n x x' y i i', (0 < n)%nat -> slen x = slen y -> slen x' = slen y ->
  first_difference x y i -> first_difference x' y i' ->
  snd (string_equal n x y) = snd (string_equal n x' y) <-> (i / n = i' / n)%nat.
Proof. exact c88_partial. Qed.
Print Assumptions C88_secrets_partial.

Example C88_case_password :
  string_equal 8 "swordfish-of-olive" "swordfish-of-olive" = (true, snd (string_equal 8 "swordfish-of-olive" "swordfish-of-olive")) /\
  string_equal 8 "xwordfish-of-olive" "swordfish-of-olive" = string_equal 8 "sword-xxxxxxxxxxxx" "swordfish-of-olive" /\
  first_difference "xwordfish-of-olive" "swordfish-of-olive" 0 /\
  snd (string_equal 8 "xwordfish-of-olive" "swordfish-of-olive") <> snd (string_equal 8 "swordfish-xxxxxxxx" "swordfish-of-olive").
Proof.
  split; [vm_compute; reflexivity|]. split; [vm_compute; reflexivity|]. split.
  - split; [intros j Hj; inversion Hj|]. discriminate.
  - vm_compute. discriminate.
Qed.
