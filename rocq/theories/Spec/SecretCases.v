(** A concrete case for what becomes known of the secrets. *)
From Verif.Model Require Import Server History.
From Verif.Spec Require Import RequestSpec ServerSpec Cases.

#[local] Open Scope string_scope.

(** A user with the given password; someone tries the password "guess", and the
    client "c1" gets a token for itself. *)
Definition secret_user (password : string) : entity :=
  {| en_secret := password; en_redirect_uri := ""; en_confidential := false |}.
Definition secret_y1 : step := step_of (new_server case_config) (SetClient "c1" case_client).
Definition secret_y2 (password : string) : step := step_of (st_after secret_y1) (SetUser "u1" (secret_user password)).
Definition guess_op : op := Serve (case_env 1000 rand1) (authorize_request "code" "xyz" "u1" "guess").
Definition own_op : op := Serve (case_env 1001 rand2) (client_request case_auth).
Definition secret_y3 (password : string) : step := step_of (st_after (secret_y2 password)) guess_op.
Definition secret_y4 (password : string) : step := step_of (st_after (secret_y3 password)) own_op.
Definition secret_run (password : string) : list step :=
  [secret_y4 password; secret_y3 password; secret_y2 password; secret_y1].
