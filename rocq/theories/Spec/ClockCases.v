(** A concrete sequence of calls during which the calendar is set. *)
From Verif.Model Require Import Clock.
From Verif.Spec Require Import RequestSpec Cases ClockSpec.

(** The calendar shows that second since 1970, the stopwatch that second. *)
Definition clock_at (wall mono : Z) : clock :=
  {| ck_wall := wall * second; ck_mono := mono * second |}.
Definition clock_env (wall mono : Z) : t_env :=
  {| tev_now_check := clock_at wall mono; tev_now_access := clock_at wall mono;
     tev_now_refresh := clock_at wall mono; tev_now_code := clock_at wall mono;
     tev_rand := rand1 +:+ rand2 |}.
(** The token that will be issued. *)
Definition clock_token : string :=
  access_of (handle (case_env 0 (rand1 +:+ rand2)) case_server (password_request case_auth "read")).

(** A token is issued for an hour. Then the calendar is set forward by [jump]
    seconds. The token is used after ten minutes, introspected, and used after
    more than an hour. *)
Definition clock_calls (jump : Z) : list t_op :=
  [TSetClient "c1" case_client; TSetUser "u1" case_user;
   TServe (clock_env 1600000000 300) (password_request case_auth "read");
   TCheck (clock_at (1600000600 + jump) 900) (bearer_request clock_token) (Some ["read"]);
   TServe (clock_env (1600000601 + jump) 901) (lookup_request "/oauth2/introspect" case_auth clock_token);
   TCheck (clock_at (1600003601 + jump) 3901) (bearer_request clock_token) (Some ["read"])].
(** What was decided, and the time of expiry that was reported. *)
Definition decisions (l : list answer) : list (option bool * Z) :=
  map (fun a => match a with
                | Checked Granted => (Some true, 0%Z)
                | Checked _ => (Some false, 0%Z)
                | Answered (OIntro x) => (None, ir_expires_at x)
                | _ => (None, 0%Z)
                end) l.
