(** Where an accepted token can come from. *)
From Verif.Model Require Import Server.
From Verif.Spec Require Import TokenSpec ServerSpec HashSpec.
#[local] Open Scope N_scope.

(** The two strings are spellings of one token: they carry the same key and the same
    signature. *)
Definition same_token (str str' : string) : Prop :=
  exists key sig s0 s1 s0' s1',
    two_segments str s0 s1 /\ b64url_denotes s0 key /\ b64url_denotes s1 sig /\
    two_segments str' s0' s1' /\ b64url_denotes s0' key /\ b64url_denotes s1' sig.

(** The key carried by a token. *)
Definition carries_key (str key : string) : Prop := exists s0 s1, two_segments str s0 s1 /\ b64url_denotes s0 key.

(** Two messages with the same SHA-256. *)
Definition collision (m m' : list N) : Prop := m <> m' /\ exists d, is_sha256 m d /\ is_sha256 m' d.

(** The block RFC 2104 makes of a secret. *)
Definition secret_block (secret block : list N) : Prop :=
  exists k, ((length secret <= 64)%nat /\ k = secret \/ (64 < length secret)%nat /\ is_sha256 secret k) /\
    block = (k ++ repeat 0 (64 - length k))%list.

(** The keys [k] and [k'] lead to a collision of SHA-256 in the computation of their
    signatures, in the inner or in the outer hash. *)
Definition lead_to_collision (secret k k' : string) : Prop :=
  exists block, secret_block (string_bytes secret) block /\
    let m := (map (N.lxor 0x36) block ++ string_bytes k)%list in
    let m' := (map (N.lxor 0x36) block ++ string_bytes k')%list in
    collision m m' \/
    exists d d', is_sha256 m d /\ is_sha256 m' d' /\
      collision (map (N.lxor 0x5c) block ++ d)%list (map (N.lxor 0x5c) block ++ d')%list.

(** The string is the token [issued], or it carries another key and the two keys lead
    to a collision. *)
Definition copied_or_collides (secret str issued : string) : Prop :=
  same_token str issued \/
  exists k k', carries_key str k /\ carries_key issued k' /\ k <> k' /\ lead_to_collision secret k k'.
