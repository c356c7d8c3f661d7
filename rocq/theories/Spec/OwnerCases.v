(** A concrete history with actions of the owner, used only to show that the
    theorems about the owner apply to something. *)
From Verif.Model Require Import Server History Concurrent Owner.
From Verif.Spec Require Import Cases HistoryCases.

(** The owner extends an issued token, changes the secret, and restores it with
    a shorter lifespan and without any allowed scope. *)
Definition extended : credential :=
  {| cd_client_id := "c1"; cd_username := "u1"; cd_expires_at := 9000 * second; cd_scope := Some ["admin"];
     cd_redirect_uri := ""; cd_code := ""; cd_used := false |}.
Definition other_config : server_config := default_server_config "another secret" (Some ["read"]).
Definition strict_config : server_config :=
  {| cfg_secret := cfg_secret case_config; cfg_key_length := 16; cfg_allowed_scope := None;
     cfg_access_lifespan := second; cfg_refresh_lifespan := second; cfg_code_lifespan := second |}.
Definition owner_events : list event :=
  [Configured strict_config; Configured other_config; Stored TAccess (sig_of (access_of step2)) (Some extended)] ++
  map Called history2.
Definition owner_server : server :=
  set_config (set_config (set_entry (after step2) TAccess (sig_of (access_of step2)) (Some extended)) other_config) strict_config.
