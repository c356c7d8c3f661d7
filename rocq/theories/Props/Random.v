(** C99: tokens are the bytes of the random source. *)
From Verif.Model Require Import Server.
From Verif.Spec Require Import TokenSpec ScopeSpec ServerSpec Cases RandomSpec.
From Verif.Proof Require Import RandomProofs.

#[local] Open Scope string_scope.
#[local] Opaque parse_token.

(** The access token is the first bytes of the source, the refresh token the bytes
    that follow, each with its signature. *)
Theorem C99_tokens : forall ev s r s' t, handle ev s r = Done s' (OToken t) ->
  exists key rest, next_key s (ev_rand ev) key rest /\ spells (server_secret s) key (tr_access_token t) /\
    (tr_refresh_token t = "" \/
     exists key' rest', next_key s rest key' rest' /\ spells (server_secret s) key' (tr_refresh_token t)).
Proof. exact c99_tokens. Qed.
Print Assumptions C99_tokens.

Theorem C99_codes : forall ev s r s' c, handle ev s r = Done s' (OCode c) ->
  exists key rest, next_key s (ev_rand ev) key rest /\ spells (server_secret s) key (cr_code c).
Proof. exact c99_codes. Qed.
Print Assumptions C99_codes.

(** Different keys give different tokens, and the same key the same token. *)
Theorem C99_distinct : forall secret key key' str str', spells secret key str -> spells secret key' str' ->
  key = key' <-> str = str'.
Proof. exact c99_distinct. Qed.
Print Assumptions C99_distinct.

(** Nothing else of the answer depends on which bytes the source delivers. *)
Theorem C99_other_bytes : forall ev ev' s r, other_bytes ev ev' -> alike (handle ev s r) (handle ev' s r).
Proof. exact c99_other_bytes. Qed.
Print Assumptions C99_other_bytes.

(** So every key is given out if the source delivers it. *)
Theorem C99_any_key : forall ev ev' s r s1 t key rest, handle ev s r = Done s1 (OToken t) -> other_bytes ev ev' ->
  next_key s (ev_rand ev') key rest ->
  exists s2 u, handle ev' s r = Done s2 (OToken u) /\ spells (server_secret s) key (tr_access_token u).
Proof. exact c99_any_key. Qed.
Print Assumptions C99_any_key.

Theorem C99_any_code : forall ev ev' s r s1 c key rest, handle ev s r = Done s1 (OCode c) -> other_bytes ev ev' ->
  next_key s (ev_rand ev') key rest ->
  exists s2 d, handle ev' s r = Done s2 (OCode d) /\ spells (server_secret s) key (cr_code d).
Proof. exact c99_any_code. Qed.
Print Assumptions C99_any_code.

(** A code and two tokens, and other bytes for them. *)
Example C99_case :
  (exists s' c, handle (case_env 1000 rand1) case_server (authorize_request "code" "xyz" "u1" "p1") = Done s' (OCode c)) /\
  (exists s' t, handle (case_env 1001 rand2) (after step1) (redeem_request case_auth (code_of step1)) = Done s' (OToken t) /\
     tr_refresh_token t <> "") /\
  other_bytes (case_env 1001 rand2) (case_env 1001 rand3) /\
  next_key (after step1) rand3 "aaaabbbbccccdddd" "eeeeffffgggghhhh".
Proof.
  split; [eexists _, _; vm_compute; reflexivity|]. split; [eexists _, _; split; [vm_compute; reflexivity|discriminate]|].
  repeat split; vm_compute; reflexivity.
Qed.
