(** What the random source has to do with the tokens. *)
From Verif.Model Require Import Server.
From Verif.Spec Require Import TokenSpec ServerSpec.

(** The string is the key and its signature, in the canonical spelling. *)
Definition spells (secret key str : string) : Prop :=
  exists s0 s1, str = s0 +:+ "." +:+ s1 /\ b64url_canonical s0 key /\ b64url_canonical s1 (hmac_sha256 secret key).

(** [key] is the next key the server takes from the source, [rest] is left. *)
Definition next_key (s : server) (source key rest : string) : Prop :=
  source = key +:+ rest /\ Z.of_nat (String.length key) = cfg_key_length (sv_config s).

(** The same moment, and as many random bytes, but others. *)
Definition other_bytes (ev ev' : env) : Prop :=
  ev_now_check ev' = ev_now_check ev /\ ev_now_access ev' = ev_now_access ev /\
  ev_now_refresh ev' = ev_now_refresh ev /\ ev_now_code ev' = ev_now_code ev /\
  String.length (ev_rand ev') = String.length (ev_rand ev).

(** The same answer but for the tokens and codes in it. *)
Inductive alike : result -> result -> Prop :=
| alike_token s1 s2 t u :
    tr_token_type t = tr_token_type u -> tr_expires_in t = tr_expires_in u -> tr_scope t = tr_scope u ->
    tr_state t = tr_state u -> tr_redirect_uri t = tr_redirect_uri u ->
    (tr_refresh_token t = "" <-> tr_refresh_token u = "") ->
    alike (Done s1 (OToken t)) (Done s2 (OToken u))
| alike_code s1 s2 c d :
    cr_state c = cr_state d -> cr_redirect_uri c = cr_redirect_uri d ->
    alike (Done s1 (OCode c)) (Done s2 (OCode d))
| alike_same res : alike res res.
