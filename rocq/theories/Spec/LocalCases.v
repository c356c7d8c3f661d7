(** Concrete cases for what an answer depends on. *)
From Verif.Model Require Import Server History.
From Verif.Spec Require Import RequestSpec ServerSpec Cases HistoryCases LocalSpec.

(** The server of the case after a code was handed out, and one with other
    clients, users and tokens besides. *)
Definition local_one : server := after step1.
Definition local_two : server :=
  let s := local_one in
  {| sv_config := sv_config s;
     sv_clients := <["c9" := case_public_client]> (delete "c2" (sv_clients s));
     sv_users := <["u9" := case_user]> (delete "u1" (sv_users s));
     sv_access := <["other" := {| cd_client_id := "c9"; cd_username := "u9"; cd_expires_at := 7; cd_scope := None;
                                  cd_redirect_uri := ""; cd_code := ""; cd_used := false |}]> (sv_access s);
     sv_refresh := sv_refresh s;
     sv_codes := sv_codes s |}.
Definition local_request : request := redeem_request case_auth (code_of step1).

(** After the code was redeemed: c1 refreshes its token, c2 asks for a token
    for the user u1. *)
Definition local_refresh : op := Serve (case_env 1002 rand3) (refresh_request case_auth (refresh_of step2)).
Definition local_rand : string := "0000111122223333444455556666777788889999AAAABBBBCCCCDDDDEEEEFFFF".
Definition local_password : op := Serve (case_env 1003 local_rand) (password_request case_auth2 "read").

(** The same two requests one after the other, c2 first, and the calls of c1
    among all calls. *)
Definition local_x3 : step := step_of (after step2) local_password.
Definition local_x4 : step := step_of (st_after local_x3) local_refresh.
Definition local_history : list step := local_x4 :: local_x3 :: history2.
Definition local_mine (o : op) : bool :=
  match o with
  | Serve _ r => negb (seqb (fst (client_credentials r)) "c2")
  | SetClient id _ | DropClient id => seqb id "c1"
  | _ => true
  end.
