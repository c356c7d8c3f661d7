(** What it means that only the time that passes matters, and not how the calendar
    is set. *)
From Verif.Model Require Import Clock.
From Verif.Spec Require Import TimeSpec ServerSpec.

(** The calls of Server.v and History.v, where an instant is one number, given by
    one of the two clocks. *)
Definition see_env (f : clock -> Z) (ev : t_env) : env :=
  {| ev_now_check := f (tev_now_check ev); ev_now_access := f (tev_now_access ev);
     ev_now_refresh := f (tev_now_refresh ev); ev_now_code := f (tev_now_code ev);
     ev_rand := tev_rand ev |}.
Definition see (f : clock -> Z) (o : t_op) : op :=
  match o with
  | TServe ev r => Serve (see_env f ev) r
  | TCheck now r required => Check (f now) r required
  | TSetClient id e => SetClient id e
  | TDropClient id => DropClient id
  | TSetUser name e => SetUser name e
  | TDropUser name => DropUser name
  end.

(** The answers to calls made in order. *)
Fixpoint answers (s : server) (l : list op) : list answer :=
  match l with
  | [] => []
  | o :: rest => snd (do_op s o) :: answers (fst (do_op s o)) rest
  end.

(** The answers differ at most in the time of expiry an introspection reports. *)
Definition with_exp (x : introspection_response) (e : Z) : introspection_response :=
  {| ir_active := ir_active x; ir_scope := ir_scope x; ir_client_id := ir_client_id x;
     ir_username := ir_username x; ir_token_type := ir_token_type x; ir_expires_at := e;
     ir_issued_at := ir_issued_at x; ir_not_before := ir_not_before x;
     ir_subject := ir_subject x; ir_audience := ir_audience x; ir_issuer := ir_issuer x;
     ir_identifier := ir_identifier x; ir_extra := ir_extra x |}.
Definition same_but_exp (a b : answer) : Prop :=
  a = b \/
  exists x e, a = Answered (OIntro x) /\ b = Answered (OIntro (with_exp x e)).

(** The readings of the clocks in a call, each with the time that is added to it. *)
Definition readings (cfg : server_config) (o : t_op) : list (clock * Z) :=
  match o with
  | TServe ev r => [(tev_now_check ev, 0); (tev_now_access ev, cfg_access_lifespan cfg);
                    (tev_now_refresh ev, cfg_refresh_lifespan cfg);
                    (tev_now_code ev, cfg_code_lifespan cfg)]%Z
  | TCheck now _ _ => [(now, 0%Z)]
  | _ => []
  end.
(** The calendar shows a date between 1885 and 2157, also at the time of expiry,
    and the numbers fit into an int64. *)
Definition ordinary (x : clock * Z) : Prop :=
  modern (ck_wall (fst x)) /\ modern (ck_wall (fst x) + snd x) /\
  int64 (ck_mono (fst x)) /\ int64 (snd x) /\ int64 (ck_mono (fst x) + snd x).
(** The calendar is ahead of the stopwatch by [k], whatever date it shows. *)
Definition in_step (k : Z) (x : clock * Z) : Prop :=
  (ck_wall (fst x) = ck_mono (fst x) + k)%Z /\ calendar (ck_wall (fst x)) /\
  int64 (ck_mono (fst x)) /\ int64 (snd x).

(** The same call, made when the calendar showed something else. *)
Definition same_stopwatch (o o' : t_op) : Prop := see ck_mono o = see ck_mono o'.

(** An earlier call answered with the access token that has the signature [sg];
    [c] is what the clocks showed when it was made. *)
Definition made_access (secret : string) (l : list (t_op * answer)) (sg : string) (c : clock) : Prop :=
  exists ev r t, In (TServe ev r, Answered (OToken t)) l /\ names secret (tr_access_token t) sg /\
    c = tev_now_access ev.
Definition made_refresh (secret : string) (l : list (t_op * answer)) (sg : string) (c : clock) : Prop :=
  exists ev r t, In (TServe ev r, Answered (OToken t)) l /\ names secret (tr_refresh_token t) sg /\
    c = tev_now_refresh ev.
