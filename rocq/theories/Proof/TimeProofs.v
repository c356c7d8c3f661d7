(** Proofs about the expiry of credentials and the two clocks. *)
From Coq Require Import ZArith Bool Lia Psatz.
From Verif.Model Require Import Time.
From Verif.Spec Require Import TimeSpec.
Open Scope Z_scope.

#[local] Arguments wall_to_internal : simpl never.
#[local] Arguments unix_to_internal : simpl never.
#[local] Arguments giga : simpl never.
#[local] Arguments wrap64 : simpl never.

Lemma wall_const : wall_to_internal = 59453308800.
Proof. reflexivity. Qed.
Lemma unix_const : unix_to_internal = 62135596800.
Proof. reflexivity. Qed.

Lemma wrap64_id x : int64 x -> wrap64 x = x.
Proof.
  unfold int64, wrap64, min64. intros H.
  rewrite Z.mod_small; lia.
Qed.

Lemma wrap64_low x : -18446744073709551616 <= x < -9223372036854775808 ->
  wrap64 x = x + 18446744073709551616.
Proof.
  unfold wrap64, min64. intros H.
  rewrite <- (Z.mod_unique_pos (x - -9223372036854775808) 18446744073709551616 (-1)
                (x + 9223372036854775808 + 18446744073709551616)); lia.
Qed.

Lemma wrap64_high x : 9223372036854775807 < x <= 18446744073709551614 ->
  wrap64 x = x - 18446744073709551616.
Proof.
  unfold wrap64, min64. intros H.
  rewrite <- (Z.mod_unique_pos (x - -9223372036854775808) 18446744073709551616 1
                (x + 9223372036854775808 - 18446744073709551616)); lia.
Qed.

(** The overflow check of Add is right. *)
Lemma wrap64_checked e d : int64 e -> int64 d ->
  (d <? 0) && (e <? wrap64 (e + d)) = false -> (0 <? d) && (wrap64 (e + d) <? e) = false ->
  wrap64 (e + d) = e + d.
Proof.
  unfold int64. intros He Hd E1 E2.
  assert (-9223372036854775808 <= e + d <= 9223372036854775807 \/
          e + d < -9223372036854775808 \/ 9223372036854775807 < e + d) as [H|[H|H]] by lia.
  - apply wrap64_id. exact H.
  - exfalso. rewrite wrap64_low in E1 by lia.
    destruct (Z.ltb_spec d 0); [|lia]. cbn [andb] in E1. apply Z.ltb_ge in E1. lia.
  - exfalso. rewrite wrap64_high in E2 by lia.
    destruct (Z.ltb_spec 0 d); [|lia]. cbn [andb] in E2. apply Z.ltb_ge in E2. lia.
Qed.

(** Nanoseconds since 1970 a time stands for on the calendar. *)
Definition stands (t : time) : Z := (tm_seconds t - unix_to_internal) * giga + tm_nsec t.

Definition sane (t : time) : Prop := 0 <= tm_nsec t < giga.

Lemma strip_seconds t : tm_seconds (strip_mono t) = tm_seconds t.
Proof. unfold strip_mono, tm_seconds. destruct (tm_mono t) eqn:E; cbn [tm_mono tm_sec tm_ext]; [reflexivity | rewrite E; reflexivity]. Qed.
Lemma strip_nsec t : tm_nsec (strip_mono t) = tm_nsec t.
Proof. unfold strip_mono. destruct (tm_mono t); reflexivity. Qed.
Lemma strip_mono_off t : tm_mono (strip_mono t) = false.
Proof. unfold strip_mono. destruct (tm_mono t) eqn:E; [reflexivity | exact E]. Qed.

Lemma now_nsec w m : tm_nsec (time_now w m) = w mod giga.
Proof. unfold time_now. destruct (_ && _); reflexivity. Qed.

Lemma now_seconds w m : tm_seconds (time_now w m) = w / giga + unix_to_internal.
Proof.
  unfold time_now, tm_seconds. destruct (_ && _); cbn [tm_mono tm_sec tm_ext]; lia.
Qed.

Lemma now_mono w m : tm_mono (time_now w m) = true -> tm_ext (time_now w m) = m.
Proof. unfold time_now. destruct (_ && _); cbn [tm_mono tm_ext]; congruence. Qed.

Lemma now_modern w m : modern w ->
  time_now w m = {| tm_mono := true; tm_sec := w / giga + 2682288000; tm_nsec := w mod giga; tm_ext := m |}.
Proof.
  unfold modern, time_now. intros H. rewrite wall_const, unix_const.
  assert (-2682288000 <= w / giga < 5907646592) as Hr.
  { unfold giga. split; [apply Z.div_le_lower_bound | apply Z.div_lt_upper_bound]; lia. }
  assert ((0 <=? w / giga + 62135596800 - 59453308800) && (w / giga + 62135596800 - 59453308800 <? 8589934592) = true) as ->.
  { apply andb_true_intro; split; [apply Z.leb_le | apply Z.ltb_lt]; lia. }
  f_equal; lia.
Qed.

Lemma add_sec_nsec t d : tm_nsec (add_sec t d) = tm_nsec t.
Proof. unfold add_sec. destruct (_ && _ && _); cbn [tm_nsec]; [reflexivity | apply strip_nsec]. Qed.

Lemma strip_ext t : tm_ext (strip_mono t) = tm_seconds t.
Proof. unfold strip_mono, tm_seconds. destruct (tm_mono t) eqn:E; reflexivity. Qed.

Lemma add_sec_seconds t d : int64 (tm_seconds t + d) ->
  tm_seconds (add_sec t d) = tm_seconds t + d.
Proof.
  intros H. unfold add_sec. destruct (_ && _ && _) eqn:E.
  - apply andb_prop in E as [E _]. apply andb_prop in E as [E _].
    unfold tm_seconds. cbn [tm_mono tm_sec]. rewrite E. lia.
  - rewrite strip_ext. rewrite wrap64_id by exact H.
    unfold tm_seconds at 1. cbn [tm_mono tm_ext].
    destruct (Z.ltb_spec (tm_seconds t) (tm_seconds t + d)), (Z.ltb_spec 0 d); cbn [Bool.eqb]; lia.
Qed.

Lemma add_sec_ext t d : tm_mono (add_sec t d) = true -> tm_mono t = true /\ tm_ext (add_sec t d) = tm_ext t.
Proof.
  unfold add_sec. destruct (_ && _ && _) eqn:E; cbn [tm_mono tm_ext]; [|congruence].
  intros _. apply andb_prop in E as [E _]. apply andb_prop in E as [E _]. auto.
Qed.

(** The seconds and nanoseconds Add arrives at. *)
Definition carry (t : time) (d : Z) : Z * Z :=
  let nsec := tm_nsec t + Z.rem d giga in
  if giga <=? nsec then (Z.quot d giga + 1, nsec - giga)
  else if nsec <? 0 then (Z.quot d giga - 1, nsec + giga)
  else (Z.quot d giga, nsec).

Lemma carry_spec t d : sane t ->
  fst (carry t d) * giga + snd (carry t d) = tm_nsec t + d /\ 0 <= snd (carry t d) < giga.
Proof.
  unfold sane, carry. intros H.
  pose proof (Z.quot_rem' d giga) as Hq.
  assert (- giga < Z.rem d giga < giga) as Hr.
  { pose proof (Z.rem_bound_abs d giga ltac:(unfold giga; lia)). unfold giga in *. lia. }
  set (q := Z.quot d giga) in *. set (r := Z.rem d giga) in *.
  unfold giga in *.
  destruct (Z.leb_spec 1000000000 (tm_nsec t + r)); [cbn [fst snd]; lia|].
  destruct (Z.ltb_spec (tm_nsec t + r) 0); cbn [fst snd]; lia.
Qed.

Definition carried (t : time) (d : Z) : time :=
  add_sec {| tm_mono := tm_mono t; tm_sec := tm_sec t; tm_nsec := snd (carry t d); tm_ext := tm_ext t |}
          (fst (carry t d)).

Lemma time_add_eq t d :
  time_add t d =
  let u := carried t d in
  if tm_mono u then
    let te := wrap64 (tm_ext u + d) in
    if ((d <? 0) && (tm_ext u <? te)) || ((0 <? d) && (te <? tm_ext u))
    then strip_mono u
    else {| tm_mono := true; tm_sec := tm_sec u; tm_nsec := tm_nsec u; tm_ext := te |}
  else u.
Proof.
  unfold time_add, carried, carry.
  destruct (giga <=? _); [reflexivity|]. destruct (_ <? 0); reflexivity.
Qed.

Lemma carried_nsec t d : tm_nsec (carried t d) = snd (carry t d).
Proof. unfold carried. rewrite add_sec_nsec. reflexivity. Qed.

Lemma carried_seconds t d : int64 (tm_seconds t + fst (carry t d)) ->
  tm_seconds (carried t d) = tm_seconds t + fst (carry t d).
Proof.
  intros H. unfold carried. rewrite add_sec_seconds; [reflexivity|exact H].
Qed.

Lemma time_add_nsec t d : tm_nsec (time_add t d) = snd (carry t d).
Proof.
  rewrite time_add_eq. cbn zeta. destruct (tm_mono _); [destruct (_ || _)|].
  - rewrite strip_nsec. apply carried_nsec.
  - cbn [tm_nsec]. apply carried_nsec.
  - apply carried_nsec.
Qed.

Lemma time_add_seconds t d : int64 (tm_seconds t + fst (carry t d)) ->
  tm_seconds (time_add t d) = tm_seconds t + fst (carry t d).
Proof.
  intros H. rewrite time_add_eq. cbn zeta. destruct (tm_mono _) eqn:E; [destruct (_ || _)|].
  - rewrite strip_seconds. apply carried_seconds, H.
  - rewrite <- (carried_seconds t d H). unfold tm_seconds. cbn [tm_mono tm_sec]. rewrite E. reflexivity.
  - apply carried_seconds, H.
Qed.

(** With the stopwatch kept, Add moves it by [d]: Go checks for overflow. *)
Lemma time_add_mono t d :
  int64 (tm_ext t) -> int64 d ->
  tm_mono (time_add t d) = true -> tm_ext (time_add t d) = tm_ext t + d.
Proof.
  intros Ht Hd. rewrite time_add_eq. cbn zeta.
  destruct (tm_mono (carried t d)) eqn:E; [|congruence].
  pose proof (add_sec_ext _ _ E) as [_ Hx]. cbn [tm_ext] in Hx. fold (carried t d) in Hx.
  destruct (_ || _) eqn:Eo.
  { rewrite strip_mono_off. congruence. }
  intros _. cbn [tm_ext]. rewrite Hx in Eo |- *.
  apply orb_false_elim in Eo as [E1 E2].
  apply (wrap64_checked (tm_ext t) d Ht Hd E1 E2).
Qed.

Lemma time_add_keeps t d :
  tm_mono t = true -> 0 <= tm_sec t + fst (carry t d) <= 8589934591 ->
  int64 (tm_ext t + d) -> tm_mono (time_add t d) = true.
Proof.
  intros Hm Hs Hx. rewrite time_add_eq. cbn zeta.
  assert (tm_mono (carried t d) = true /\ tm_ext (carried t d) = tm_ext t) as [E Ex].
  { unfold carried, add_sec. cbn [tm_mono tm_sec tm_ext]. rewrite Hm.
    destruct (Z.leb_spec 0 (tm_sec t + fst (carry t d))); [|lia].
    destruct (Z.leb_spec (tm_sec t + fst (carry t d)) 8589934591); [|lia].
    cbn. auto. }
  rewrite E, Ex, wrap64_id by exact Hx.
  destruct (Z.ltb_spec d 0), (Z.ltb_spec (tm_ext t) (tm_ext t + d)),
           (Z.ltb_spec 0 d), (Z.ltb_spec (tm_ext t + d) (tm_ext t)); cbn; try lia; reflexivity.
Qed.

Lemma now_sane w m : sane (time_now w m).
Proof. unfold sane. rewrite now_nsec. apply Z.mod_pos_bound. unfold giga; lia. Qed.

Lemma now_stands w m : stands (time_now w m) = w.
Proof.
  unfold stands. rewrite now_nsec, now_seconds.
  pose proof (Z.div_mod w giga ltac:(unfold giga; lia)). lia.
Qed.

(** The seconds of the carry are small enough for an int64. *)
Lemma carry_now_seconds w m d : calendar w -> int64 d ->
  int64 (tm_seconds (time_now w m) + fst (carry (time_now w m) d)).
Proof.
  intros Hw Hd. destruct (carry_spec (time_now w m) d (now_sane w m)) as [H1 H2].
  pose proof (now_sane w m) as H3. unfold sane in H3.
  rewrite now_seconds, unix_const. unfold calendar, int64, giga in *.
  assert (-4000000000000000000 <= w / 1000000000 <= 4000000000000000000) as Hr.
  { split; [apply Z.div_le_lower_bound | apply Z.div_le_upper_bound]; lia. }
  lia.
Qed.

Lemma expiry_sane w m d : sane (expiry w m d).
Proof. unfold sane, expiry. rewrite time_add_nsec. apply carry_spec, now_sane. Qed.

Lemma expiry_stands w m d : calendar w -> int64 d -> stands (expiry w m d) = w + d.
Proof.
  intros Hw Hd. unfold stands, expiry.
  rewrite time_add_nsec, time_add_seconds by (apply carry_now_seconds; assumption).
  destruct (carry_spec (time_now w m) d (now_sane w m)) as [H1 _].
  pose proof (now_stands w m) as H2. unfold stands in H2. lia.
Qed.

Lemma expiry_ext w m d : int64 m -> int64 d ->
  tm_mono (expiry w m d) = true -> tm_ext (expiry w m d) = m + d.
Proof.
  intros Hm Hd E. unfold expiry in *.
  assert (tm_mono (time_now w m) = true) as En.
  { rewrite time_add_eq in E. cbn zeta in E.
    destruct (tm_mono (carried (time_now w m) d)) eqn:Ec; [|congruence].
    apply add_sec_ext in Ec as [Ec _]. exact Ec. }
  rewrite time_add_mono; [rewrite (now_mono _ _ En); reflexivity | rewrite (now_mono _ _ En) | |]; assumption.
Qed.

(** Two times on the calendar compare as the nanoseconds they stand for. *)
Lemma calendar_order t u : sane t -> sane u ->
  (tm_seconds t <? tm_seconds u) || ((tm_seconds t =? tm_seconds u) && (tm_nsec t <? tm_nsec u))
  = (stands t <? stands u).
Proof.
  unfold sane, stands, giga. intros Ht Hu.
  destruct (Z.ltb_spec (tm_seconds t) (tm_seconds u)),
           (Z.eqb_spec (tm_seconds t) (tm_seconds u)),
           (Z.ltb_spec (tm_nsec t) (tm_nsec u)); cbn;
    symmetry; first [apply Z.ltb_lt; lia | apply Z.ltb_ge; lia].
Qed.

(** C74. *)
Lemma c74_reported w m d : calendar w -> int64 d ->
  reported (expiry w m d) = (w + d) / 1000000000.
Proof.
  intros Hw Hd. pose proof (expiry_stands w m d Hw Hd) as H. pose proof (expiry_sane w m d) as Hs.
  unfold reported, time_unix, stands, sane in *. rewrite <- H.
  change 1000000000 with giga.
  rewrite Z.div_add_l by (unfold giga; lia).
  rewrite (Z.div_small _ _ Hs). lia.
Qed.

Lemma expiry_keeps w m d :
  modern w -> modern (w + d) -> int64 (m + d) -> tm_mono (expiry w m d) = true.
Proof.
  intros H1 Hd1 Hmd.
  unfold expiry. pose proof (carry_spec (time_now w m) d (now_sane w m)) as [Hc1 Hc2].
  pose proof (now_sane w m) as Hs. unfold sane in Hs. rewrite now_nsec in *.
  apply time_add_keeps; rewrite (now_modern w m H1) in *; cbn [tm_mono tm_sec tm_ext]; auto.
  pose proof (Z.div_mod w giga ltac:(unfold giga; lia)) as Hdm.
  unfold modern, giga in *. lia.
Qed.

Lemma before_stopwatch t c : tm_mono t = true -> modern (ck_wall c) ->
  time_before t (now_at c) = (tm_ext t <? ck_mono c).
Proof.
  intros E H. unfold time_before, now_at. rewrite (now_modern _ _ H). cbn [tm_mono tm_ext]. rewrite E.
  reflexivity.
Qed.

Lemma c74_elapsed w1 m1 d w2 m2 :
  modern w1 -> modern (w1 + d) -> modern w2 -> int64 m1 -> int64 d -> int64 (m1 + d) ->
  (is_expired (expiry w1 m1 d) w2 m2 = true <-> outlived m1 m2 d).
Proof.
  intros H1 Hd1 H2 Hm1 Hd Hmd.
  pose proof (expiry_keeps w1 m1 d H1 Hd1 Hmd) as E.
  unfold is_expired, time_before, outlived. rewrite (now_modern w2 m2 H2). cbn [tm_mono tm_ext].
  rewrite E, (expiry_ext w1 m1 d Hm1 Hd E). cbn [andb].
  rewrite Z.ltb_lt. lia.
Qed.

Lemma c74_one_number w1 m1 d w2 m2 :
  calendar w1 -> int64 m1 -> int64 d -> undisturbed w1 m1 w2 m2 ->
  is_expired (expiry w1 m1 d) w2 m2 = (w1 + d <? w2).
Proof.
  intros Hw Hm Hd Hu. unfold is_expired, time_before.
  destruct (tm_mono (expiry w1 m1 d) && tm_mono (time_now w2 m2)) eqn:E.
  - apply andb_prop in E as [E1 E2].
    rewrite (expiry_ext w1 m1 d Hm Hd E1), (now_mono w2 m2 E2).
    unfold undisturbed in Hu.
    destruct (Z.ltb_spec (m1 + d) m2), (Z.ltb_spec (w1 + d) w2); try reflexivity; lia.
  - rewrite calendar_order by (apply expiry_sane || apply now_sane).
    rewrite expiry_stands, now_stands by assumption. reflexivity.
Qed.

(** A credential for an hour, made when the clock shows noon. Ten minutes
    later the clock has been set two hours ahead. *)
Lemma c74_case :
  let noon := 1600000000 * 1000000000 in
  let hour := 3600 * 1000000000 in
  let minutes := 60 * 1000000000 in
  let t := expiry noon (5 * minutes) hour in
  modern noon /\ modern (noon + hour) /\ modern (noon + 2 * hour + 10 * minutes) /\
  int64 (5 * minutes) /\ int64 hour /\ int64 (5 * minutes + hour) /\ calendar noon /\
  (reported t < (noon + 2 * hour + 10 * minutes) / 1000000000) /\
  is_expired t (noon + 2 * hour + 10 * minutes) (15 * minutes) = false /\
  is_expired t (noon - hour) (66 * minutes) = true /\
  undisturbed noon (5 * minutes) (noon + 61 * minutes) (66 * minutes) /\
  is_expired t (noon + 61 * minutes) (66 * minutes) = true /\
  is_expired t (noon + 60 * minutes) (65 * minutes) = false.
Proof.
  cbv zeta. unfold modern, int64, calendar, undisturbed.
  repeat split; try (vm_compute; congruence); vm_compute; reflexivity.
Qed.
