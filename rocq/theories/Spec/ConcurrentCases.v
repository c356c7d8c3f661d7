(** A concrete race, used only to show that the theorems about concurrent
    calls apply to something. *)
From Verif.Model Require Import Server History Concurrent Owner.
From Verif.Spec Require Import RequestSpec Cases HistoryCases LocalCases ConcurrentSpec OwnerCases.

(** Three goroutines: two redeem the same code, for the third the random
    source fails. *)
Definition race : list call :=
  [CServe (case_env 1001 rand2) (redeem_request case_auth (code_of step1)) new_rw;
   CServe (case_env 1001 rand3) (redeem_request case_auth (code_of step1)) new_rw;
   CServe (case_env 1001 "too short") (password_request case_auth "read") new_rw].

(** Status of the response, 0 if there is none; [None] for a panic. *)
Definition status_of (v : option reply) : option Z :=
  match v with
  | Some (Served w) => Some (match rw_sent w with Some (code, _) => code | None => 0%Z end)
  | Some _ => Some 0%Z
  | None => None
  end.

(** A client whose form does not arrive, and the check of a resource server. *)
Definition stalled : list call :=
  [CServe (case_env 1001 rand2) (password_request case_auth "read") new_rw;
   CAuthorize 1001 (bearer_request "x") None new_rw].

(** A check, while the owner changes the secret and deletes the token. *)
Definition owner_race : list call :=
  [CAuthorize (8999 * second) (bearer_request (access_of step2)) (Some ["admin"]) new_rw;
   CSetConfig other_config;
   CStore TAccess (sig_of (access_of step2)) None].
(** What [Authorize] returned; [None] for other calls. *)
Definition allowed (v : option reply) : option bool :=
  match v with Some (Authorized b _) => Some b | _ => None end.

(** c1 refreshes its token while c2 asks for one, as in LocalCases.v. *)
Definition apart_calls : list call :=
  [ CServe (case_env 1002 rand3) (refresh_request case_auth (refresh_of step2)) new_rw;
    CServe (case_env 1003 local_rand) (password_request case_auth2 "read") new_rw ].
