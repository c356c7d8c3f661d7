(** Introspection and histories. *)
From Verif.Model Require Import Server History.
From Verif.Spec Require Import TokenSpec ScopeSpec WireSpec RequestSpec ServerSpec HistorySpec.
From Verif.Proof Require Import StrFacts HsFacts TokenProofs UrlFacts Steps ServerFacts RequestProofs ServerProofs GrantProofs EffectProofs Effects HistoryFacts HistoryProofs.

Lemma still_access_spec cfg l s sg : history cfg l s ->
  (sv_access s !! sg = None -> forall ev r t, ~ still_access (cfg_secret cfg) l sg ev r t) /\
  (forall c, sv_access s !! sg = Some c -> exists ev r t, still_access (cfg_secret cfg) l sg ev r t) /\
  (forall c ev r t, sv_access s !! sg = Some c -> still_access (cfg_secret cfg) l sg ev r t ->
     acts_for r (cd_client_id c) /\ cd_scope c = tr_scope t /\ cd_expires_at c = (ev_now_access ev + cfg_access_lifespan cfg)%Z).
Proof.
  intros H. pose proof (access_life _ _ _ sg H) as HL. unfold access_story in HL. destruct (sv_access s !! sg) as [c0|].
  - destruct HL as (x & later & ev & r & t & Hl & Hsv & _ & Ha & Hsc & He & _ & _ & Hend). split; [done|]. split.
    + intros c _. exists ev, r, t, x, later. done.
    + intros c ev' r' t' [= <-] (x' & later' & Hl' & Hsv' & _). destruct (last_step_fun _ _ _ _ _ _ Hl Hl') as [<- <-].
      by destruct (served_fun _ _ _ _ _ _ _ Hsv Hsv') as (<- & <- & [= <-]).
  - split; [|by split]. intros _ ev r t (x & later & Hl & _ & Hend). destruct (HL _ _ Hl) as (y & Hy & Hx). by apply (Hend y).
Qed.
Lemma still_refresh_spec cfg l s sg : history cfg l s ->
  (sv_refresh s !! sg = None -> forall ev r t, ~ still_refresh (cfg_secret cfg) l sg ev r t) /\
  (forall c, sv_refresh s !! sg = Some c -> exists ev r t, still_refresh (cfg_secret cfg) l sg ev r t) /\
  (forall c ev r t, sv_refresh s !! sg = Some c -> still_refresh (cfg_secret cfg) l sg ev r t ->
     acts_for r (cd_client_id c) /\ cd_scope c = tr_scope t /\ cd_expires_at c = (ev_now_refresh ev + cfg_refresh_lifespan cfg)%Z).
Proof.
  intros H. pose proof (refresh_life _ _ _ sg H) as HL. unfold refresh_story in HL. destruct (sv_refresh s !! sg) as [c0|].
  - destruct HL as (x & later & ev & r & t & Hl & Hsv & _ & Ha & Hsc & He & _ & _ & Hend). split; [done|]. split.
    + intros c _. exists ev, r, t, x, later. done.
    + intros c ev' r' t' [= <-] (x' & later' & Hl' & Hsv' & _). destruct (last_step_fun _ _ _ _ _ _ Hl Hl') as [<- <-].
      by destruct (served_fun _ _ _ _ _ _ _ Hsv Hsv') as (<- & <- & [= <-]).
  - split; [|by split]. intros _ ev r t (x & later & Hl & _ & Hend). destruct (HL _ _ Hl) as (y & Hy & Hx). by apply (Hend y).
Qed.

Lemma c66_introspection : forall cfg l s ev r id sg, history cfg l s ->
  complete_introspection r -> from_client s r id -> names (cfg_secret cfg) (body_param r "token") sg ->
  let access := still_access (cfg_secret cfg) l sg in
  let refresh := still_refresh (cfg_secret cfg) l sg in
  ((exists x, handle ev s r = Done s (OIntro x) /\ reports_nothing x) <->
   forall ev0 r0 t0, ~ access ev0 r0 t0 /\ ~ refresh ev0 r0 t0) /\
  (handle ev s r = Done s (OError (InvalidClient "wrong client")) <->
   exists ev0 r0 t0, (access ev0 r0 t0 \/ refresh ev0 r0 t0) /\ ~ acts_for r0 id) /\
  (forall sc expires,
   (exists x, handle ev s r = Done s (OIntro x) /\ ir_token_type x = "access_token" /\ tells x id sc expires) <->
   exists ev0 r0 t0, access ev0 r0 t0 /\ acts_for r0 id /\ (forall ev1 r1 t1, ~ refresh ev1 r1 t1) /\
     sc = tr_scope t0 /\ ((ev_now_access ev0 + cfg_access_lifespan cfg) / 1000000000 = expires / 1000000000)%Z) /\
  (forall sc expires,
   (exists x, handle ev s r = Done s (OIntro x) /\ ir_token_type x = "refresh_token" /\ tells x id sc expires) <->
   exists ev0 r0 t0, refresh ev0 r0 t0 /\ acts_for r0 id /\ (forall ev1 r1 t1, access ev1 r1 t1 -> acts_for r1 id) /\
     sc = tr_scope t0 /\ ((ev_now_refresh ev0 + cfg_refresh_lifespan cfg) / 1000000000 = expires / 1000000000)%Z).
Proof.
  intros cfg l s ev r id sg H Hc Hf Hn access refresh. subst access refresh.
  pose proof (still_access_spec _ _ _ sg H) as (A0 & A1 & A2). pose proof (still_refresh_spec _ _ _ sg H) as (F0 & F1 & F2).
  rewrite <- (history_secret _ _ _ H) in Hn. destruct (c47_answer ev s r id sg Hc Hf Hn) as (N & R & F & W).
  assert (Hsec : forall a b, (a * 1000000000 <= b < (a + 1) * 1000000000)%Z <-> (a = b / 1000000000)%Z).
  { intros a b. pose proof (Z.div_mod b 1000000000). pose proof (Z.mod_pos_bound b 1000000000). lia. }
  destruct (sv_refresh s !! sg) as [f|] eqn:Ef.
  - destruct (F1 f eq_refl) as (ef & rf & tf & SF). destruct (F2 _ _ _ _ eq_refl SF) as (Hfa & Hfs & Hfe).
    destruct (decide (cd_client_id f = id)) as [Hid|Hid].
    + destruct (sv_access s !! sg) as [a|] eqn:Ea.
      * destruct (A1 a eq_refl) as (ea & ra & ta & SA). destruct (A2 _ _ _ _ eq_refl SA) as (Haa & Has & Hae).
        destruct (decide (cd_client_id a = id)) as [Hida|Hida].
        -- destruct (F f eq_refl Hid) as (x & Hx & Hr); [by intros ? [= <-]|]. rewrite Hx.
           destruct Hr as (R1 & R2 & R3 & R4 & _ & R6 & _).
           split; [|split; [|split]].
           ++ split; [intros (? & [= <-] & ->); done|]. intros HN. by destruct (HN ea ra ta) as [[] _].
           ++ split; [done|]. intros (e0 & r0 & t0 & [S|S] & HN); exfalso; apply HN.
              ** rewrite <- Hida. by apply (A2 _ _ _ _ eq_refl S).
              ** rewrite <- Hid. by apply (F2 _ _ _ _ eq_refl S).
           ++ intros sc expires. split; [intros (? & [= <-] & E & _); congruence|]. intros (e0 & r0 & t0 & _ & _ & HN & _). by apply HN in SF.
           ++ intros sc expires. split.
              ** intros (? & [= <-] & _ & (_ & _ & T3 & T4)). exists ef, rf, tf.
                 split; [done|]. split; [by rewrite <- Hid|]. split; [|split; [congruence|]].
                 { intros e1 r1 t1 S1. rewrite <- Hida. by apply (A2 _ _ _ _ eq_refl S1). }
                 rewrite Hfe in R6. apply Hsec in R6, T4. congruence.
              ** intros (e0 & r0 & t0 & S & _ & _ & -> & He). destruct (F2 _ _ _ _ eq_refl S) as (_ & E1 & E2).
                 exists x. split; [done|]. split; [done|]. split; [done|]. split; [congruence|]. split; [congruence|].
                 rewrite E2 in R6. apply Hsec in R6. apply Hsec. congruence.
        -- rewrite (W a) by auto. split; [|split; [|split]].
           ++ split; [by intros (? & ? & _)|]. intros HN. by destruct (HN ea ra ta) as [[] _].
           ++ split; [intros _|done]. exists ea, ra, ta. split; [by left|]. intros Hx. apply Hida. by eapply acts_for_fun.
           ++ intros sc expires. split; [by intros (? & ? & _)|]. intros (e0 & r0 & t0 & _ & _ & HN & _). by apply HN in SF.
           ++ intros sc expires. split; [by intros (? & ? & _)|]. intros (e0 & r0 & t0 & _ & _ & HN & _).
              exfalso. apply Hida. apply HN in SA. by eapply acts_for_fun.
      * destruct (F f eq_refl Hid) as (x & Hx & Hr); [done|]. rewrite Hx.
        destruct Hr as (R1 & R2 & R3 & R4 & _ & R6 & _).
        split; [|split; [|split]].
        ++ split; [intros (? & [= <-] & ->); done|]. intros HN. by destruct (HN ef rf tf) as [_ []].
        ++ split; [done|]. intros (e0 & r0 & t0 & [S|S] & HN); [by apply A0 in S|]. exfalso; apply HN.
           rewrite <- Hid. by apply (F2 _ _ _ _ eq_refl S).
        ++ intros sc expires. split; [intros (? & [= <-] & E & _); congruence|]. intros (e0 & r0 & t0 & _ & _ & HN & _). by apply HN in SF.
        ++ intros sc expires. split.
           ** intros (? & [= <-] & _ & (_ & _ & T3 & T4)). exists ef, rf, tf.
              split; [done|]. split; [by rewrite <- Hid|]. split; [|split; [congruence|]].
              { intros e1 r1 t1 S1. by apply A0 in S1. }
              rewrite Hfe in R6. apply Hsec in R6, T4. congruence.
           ** intros (e0 & r0 & t0 & S & _ & _ & -> & He). destruct (F2 _ _ _ _ eq_refl S) as (_ & E1 & E2).
              exists x. split; [done|]. split; [done|]. split; [done|]. split; [congruence|]. split; [congruence|].
              rewrite E2 in R6. apply Hsec in R6. apply Hsec. congruence.
    + rewrite (W f) by auto. split; [|split; [|split]].
      * split; [by intros (? & ? & _)|]. intros HN. by destruct (HN ef rf tf) as [_ []].
      * split; [intros _|done]. exists ef, rf, tf. split; [by right|]. intros Hx. apply Hid. by eapply acts_for_fun.
      * intros sc expires. split; [by intros (? & ? & _)|]. intros (e0 & r0 & t0 & _ & _ & HN & _). by apply HN in SF.
      * intros sc expires. split; [by intros (? & ? & _)|]. intros (e0 & r0 & t0 & S & HA & _).
        exfalso. apply Hid. destruct (F2 _ _ _ _ eq_refl S) as (E & _). by eapply acts_for_fun.
  - destruct (sv_access s !! sg) as [a|] eqn:Ea.
    + destruct (A1 a eq_refl) as (ea & ra & ta & SA). destruct (A2 _ _ _ _ eq_refl SA) as (Haa & Has & Hae).
      destruct (decide (cd_client_id a = id)) as [Hid|Hid].
      * destruct (R a eq_refl eq_refl Hid) as (x & Hx & Hr). rewrite Hx.
        destruct Hr as (R1 & R2 & R3 & R4 & _ & R6 & _).
        split; [|split; [|split]].
        -- split; [intros (? & [= <-] & ->); done|]. intros HN. by destruct (HN ea ra ta) as [[] _].
        -- split; [done|]. intros (e0 & r0 & t0 & [S|S] & HN); [|by apply F0 in S]. exfalso; apply HN.
           rewrite <- Hid. by apply (A2 _ _ _ _ eq_refl S).
        -- intros sc expires. split.
           ++ intros (? & [= <-] & _ & (_ & _ & T3 & T4)). exists ea, ra, ta.
              split; [done|]. split; [by rewrite <- Hid|]. split; [|split; [congruence|]].
              { intros e1 r1 t1 S1. by apply F0 in S1. }
              rewrite Hae in R6. apply Hsec in R6, T4. congruence.
           ++ intros (e0 & r0 & t0 & S & _ & _ & -> & He). destruct (A2 _ _ _ _ eq_refl S) as (_ & E1 & E2).
              exists x. split; [done|]. split; [done|]. split; [done|]. split; [congruence|]. split; [congruence|].
              rewrite E2 in R6. apply Hsec in R6. apply Hsec. congruence.
        -- intros sc expires. split; [intros (? & [= <-] & E & _); congruence|]. intros (e0 & r0 & t0 & S & _). by apply F0 in S.
      * rewrite (W a) by auto. split; [|split; [|split]].
        -- split; [by intros (? & ? & _)|]. intros HN. by destruct (HN ea ra ta) as [[] _].
        -- split; [intros _|done]. exists ea, ra, ta. split; [by left|]. intros Hx. apply Hid. by eapply acts_for_fun.
        -- intros sc expires. split; [by intros (? & ? & _)|]. intros (e0 & r0 & t0 & S & HA & _).
           exfalso. apply Hid. destruct (A2 _ _ _ _ eq_refl S) as (E & _). by eapply acts_for_fun.
        -- intros sc expires. split; [by intros (? & ? & _)|]. intros (e0 & r0 & t0 & S & _). by apply F0 in S.
    + destruct (N eq_refl eq_refl) as (x & Hx & Hr). rewrite Hx. split; [|split; [|split]].
      * split; [|intros _; by exists x]. intros _ ev0 r0 t0. split; [by apply A0|by apply F0].
      * split; [done|]. intros (e0 & r0 & t0 & [S|S] & _); [by apply A0 in S|by apply F0 in S].
      * intros sc expires. split; [intros (? & [= <-] & E & _); by rewrite Hr in E|]. intros (e0 & r0 & t0 & S & _). by apply A0 in S.
      * intros sc expires. split; [intros (? & [= <-] & E & _); by rewrite Hr in E|]. intros (e0 & r0 & t0 & S & _). by apply F0 in S.
Qed.
