(** Requests the case server refuses. *)
From Verif.Model Require Import Server.
From Verif.Spec Require Import RequestSpec Cases.

(** A wrong password. *)
Definition bad_password : request :=
  post_to "/oauth2/token" case_auth [("grant_type", "password"); ("username", "u1"); ("password", "x"); ("scope", "read")].
(** A grant type that does not exist. *)
Definition bad_grant : request := post_to "/oauth2/token" case_auth [("grant_type", "magic")].
