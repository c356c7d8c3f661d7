(** C74: expiry and the two clocks of Go. *)
From Verif.Model Require Import Time Clock.
From Verif.Spec Require Import TimeSpec RequestSpec ServerSpec Cases ClockSpec ClockCases.
From Verif.Proof Require Import TimeProofs ClockMore ClockCase.

#[local] Opaque t_handle handle parse_token.

(** C74. What time.Now().Add(life) has become is over exactly if more than [life]
    has passed on the stopwatch, whatever the calendar showed then and shows
    now. *)
Theorem C74_elapsed : forall w1 m1 d w2 m2,
  modern w1 -> modern (w1 + d) -> modern w2 -> int64 m1 -> int64 d -> int64 (m1 + d) ->
  (is_expired (expiry w1 m1 d) w2 m2 = true <-> outlived m1 m2 d).
Proof. exact c74_elapsed. Qed.
Print Assumptions C74_elapsed.

(** The time it reports is what the calendar showed plus the life. *)
Theorem C74_reported : forall w m d,
  calendar w -> int64 d ->
  reported (expiry w m d) = (w + d) / 1000000000.
Proof. exact c74_reported. Qed.
Print Assumptions C74_reported.

(** If nobody sets the calendar one number for an instant is enough, at any
    date. *)
Theorem C74_one_number : forall w1 m1 d w2 m2,
  calendar w1 -> int64 m1 -> int64 d -> undisturbed w1 m1 w2 m2 ->
  is_expired (expiry w1 m1 d) w2 m2 = (w1 + d <? w2).
Proof. exact c74_one_number. Qed.
Print Assumptions C74_one_number.

Example C74_time_case :
  let noon := 1600000000 * 1000000000 in
  let hour := 3600 * 1000000000 in
  let minutes := 60 * 1000000000 in
  let t := expiry noon (5 * minutes) hour in
  modern noon /\ modern (noon + hour) /\ modern (noon + 2 * hour + 10 * minutes) /\
  int64 (5 * minutes) /\ int64 hour /\ int64 (5 * minutes + hour) /\ calendar noon /\
  (reported t < (noon + 2 * hour + 10 * minutes) / 1000000000) /\
  is_expired t (noon + 2 * hour + 10 * minutes) (15 * minutes) = false /\
  is_expired t (noon - hour) (66 * minutes) = true /\
  undisturbed noon (5 * minutes) (noon + 61 * minutes) (66 * minutes) /\
  is_expired t (noon + 61 * minutes) (66 * minutes) = true /\
  is_expired t (noon + 60 * minutes) (65 * minutes) = false.
Proof. exact c74_case. Qed.

(** For any calls to the server: setting the calendar changes no answer, but for
    the time of expiry that introspection reports. *)
Theorem C74_settings : forall cfg l l',
  List.Forall (fun o => List.Forall ordinary (readings cfg o)) l ->
  List.Forall (fun o => List.Forall ordinary (readings cfg o)) l' ->
  List.Forall2 same_stopwatch l l' ->
  List.Forall2 same_but_exp (snd (t_do_ops (t_new_server cfg) l)) (snd (t_do_ops (t_new_server cfg) l')).
Proof. exact c74_settings. Qed.
Print Assumptions C74_settings.

(** So the model with one number for an instant is right about all of these
    answers if the number is what the stopwatch shows. *)
Theorem C74_stopwatch : forall cfg l,
  List.Forall (fun o => List.Forall ordinary (readings cfg o)) l ->
  List.Forall2 same_but_exp (snd (t_do_ops (t_new_server cfg) l)) (answers (new_server cfg) (map (see ck_mono) l)).
Proof. exact c74_stopwatch. Qed.
Print Assumptions C74_stopwatch.

(** It is right about all answers, if nobody sets the calendar and the number is
    what the calendar shows. *)
Theorem C74_undisturbed : forall cfg k l,
  List.Forall (fun o => List.Forall (in_step k) (readings cfg o)) l ->
  snd (t_do_ops (t_new_server cfg) l) = answers (new_server cfg) (map (see ck_wall) l).
Proof. exact c74_undisturbed. Qed.
Print Assumptions C74_undisturbed.

(** The reported time of expiry is what the calendar showed when the token was
    made plus its life. *)
Theorem C74_introspection : forall cfg l ev r x,
  let s := fst (t_do_ops (t_new_server cfg) l) in
  let past := combine l (snd (t_do_ops (t_new_server cfg) l)) in
  List.Forall (fun o => List.Forall (fun c => calendar (ck_wall (fst c)) /\ int64 (snd c)) (readings cfg o)) l ->
  snd (t_do_op s (TServe ev r)) = Answered (OIntro x) -> ir_active x = true ->
  exists sg c, names (cfg_secret cfg) (body_param r "token") sg /\
    ((made_access (cfg_secret cfg) past sg c /\
      ir_expires_at x = (ck_wall c + cfg_access_lifespan cfg) / 1000000000)%Z \/
     (made_refresh (cfg_secret cfg) past sg c /\
      ir_expires_at x = (ck_wall c + cfg_refresh_lifespan cfg) / 1000000000)%Z).
Proof. exact c74_introspection. Qed.
Print Assumptions C74_introspection.

(** Here a token is accepted two hours after the time that introspection reports,
    because only ten minutes have passed. *)
Example C74_case :
  Forall (fun o => Forall ordinary (readings case_config o)) (clock_calls 7200) /\
  Forall (fun o => Forall ordinary (readings case_config o)) (clock_calls (-7200)) /\
  Forall2 same_stopwatch (clock_calls 7200) (clock_calls (-7200)) /\
  Forall (fun o => Forall (in_step (1599999700 * second)) (readings case_config o)) (clock_calls 0) /\
  decisions (snd (t_do_ops (t_new_server case_config) (clock_calls 7200))) =
    [(None, 0); (None, 0); (None, 0); (Some true, 0); (None, 1600003600); (Some false, 0)].
Proof. exact (conj clock_ordinary_ahead (conj clock_ordinary_back (conj clock_same (conj clock_in_step clock_answers)))). Qed.
