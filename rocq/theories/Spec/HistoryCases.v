(** A concrete history, used only to show that the theorems about histories
    apply to something. *)
From Verif.Model Require Import Server History.
From Verif.Spec Require Import RequestSpec Cases.

Definition setup1 : step := step_of (new_server case_config) (SetClient "c2" case_public_client).
Definition setup2 : step := step_of (st_after setup1) (SetClient "c1" case_client).
Definition setup3 : step := step_of (st_after setup2) (SetUser "u1" case_user).
Definition setup : list step := [setup3; setup2; setup1].

(** The calls of [step1], [step2] and [step3]. *)
Definition case_x1 : step :=
  step_of case_server (Serve (case_env 1000 rand1) (authorize_request "code" "xyz" "u1" "p1")).
Definition case_x2 : step :=
  step_of (after step1) (Serve (case_env 1001 rand2) (redeem_request case_auth (code_of step1))).
Definition case_x3 : step :=
  step_of (after step2) (Serve (case_env 1002 rand3) (refresh_request case_auth (refresh_of step2))).
(** The code is replayed, after the refresh or instead of it. *)
Definition replay_op : op := Serve (case_env 1003 rand3) (redeem_request case_auth (code_of step1)).
Definition case_x4 : step := step_of (after step3) replay_op.
Definition case_y3 : step := step_of (after step2) replay_op.
(** The access token is revoked, then someone tries to use it. *)
Definition revoked : result :=
  handle (case_env 1003 rand3) (after step2) (lookup_request "/oauth2/revoke" case_auth (access_of step2)).
Definition case_check : step :=
  step_of (after revoked) (Check (1004 * second) (bearer_request (access_of step2)) (Some ["read"])).

Definition history1 : list step := case_x1 :: setup.
Definition history2 : list step := case_x2 :: history1.
Definition history3 : list step := case_x3 :: history2.
