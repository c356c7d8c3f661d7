(** Invariants of histories. *)
From Verif.Model Require Import Server History.
From Verif.Spec Require Import TokenSpec ScopeSpec WireSpec RequestSpec ServerSpec HistorySpec.
From Verif.Proof Require Import StrFacts HsFacts TokenProofs UrlFacts Steps ServerFacts RequestProofs ServerProofs GrantProofs EffectProofs Effects.

(** ** Steps *)
Lemma served_fun x ev r o ev' r' o' : served x ev r o -> served x ev' r' o' -> ev = ev' /\ r = r' /\ o = o'.
Proof. intros [H1 H2] [H3 H4]. rewrite H1 in H3. rewrite H2 in H4. injection H3 as <- <-. by injection H4 as <-. Qed.
Lemma served_step s o ev r out : served (step_of s o) ev r out <-> o = Serve ev r /\ exists s', handle ev s r = Done s' out.
Proof.
  unfold served, step_of. cbn [st_op st_answer]. split.
  - intros [-> H]. cbn in H. split; [done|]. destruct (handle ev s r) as [s' out'|]; cbn in H; [injection H as ->; eauto|done].
  - intros [-> (s' & H)]. cbn. by rewrite H.
Qed.
Lemma step_serve s ev r : fst (do_op s (Serve ev r)) = res_server (handle ev s r).
Proof. cbn. by destruct (handle ev s r). Qed.
Lemma res_done ev s r s' o : handle ev s r = Done s' o -> handle ev s r = Done (res_server (handle ev s r)) o.
Proof. intros H. by rewrite H. Qed.
Definition is_serve (o : op) : Prop := exists ev r, o = Serve ev r.
Lemma serve_dec o : is_serve o \/ ~ is_serve o.
Proof. destruct o; [left; by eexists _, _|right; by intros (? & ? & ?)..]. Qed.
Lemma other_step s o : ~ is_serve o ->
  sv_config (fst (do_op s o)) = sv_config s /\ sv_access (fst (do_op s o)) = sv_access s /\
  sv_refresh (fst (do_op s o)) = sv_refresh s /\ sv_codes (fst (do_op s o)) = sv_codes s /\
  forall ev r out, ~ served (step_of s o) ev r out.
Proof.
  intros Hn. destruct o; [destruct Hn; by eexists _, _|..]; cbn; do 4 (split; [done|]); by intros ? ? ? [? _].
Qed.
Lemma handle_config ev s r : sv_config (res_server (handle ev s r)) = sv_config s.
Proof.
  pose proof (handle_handled ev s r) as H. destruct H; try done; cbn;
    match goal with
    | H : issued_access _ _ _ _ _ _ _ _ |- _ => destruct H as (? & ? & _ & _ & ->); done
    | H : issued_both _ _ _ _ _ _ _ _ |- _ => destruct H as (? & ? & ? & ? & _ & _ & _ & ->); done
    end.
Qed.
Lemma step_config s o : sv_config (fst (do_op s o)) = sv_config s.
Proof. destruct (serve_dec o) as [(ev & r & ->)|Hn]; [rewrite step_serve; apply handle_config|by apply other_step]. Qed.
Lemma run_config s l s' : run s l s' -> sv_config s' = sv_config s.
Proof. induction 1; [done|]. by rewrite step_config. Qed.
Lemma history_config cfg l s : history cfg l s -> sv_config s = cfg.
Proof. intros H. by apply run_config in H. Qed.
Lemma history_secret cfg l s : history cfg l s -> server_secret s = cfg_secret cfg.
Proof. intros H. unfold server_secret. by rewrite (history_config _ _ _ H). Qed.
Lemma run_app s l s1 l' s2 : run s l s1 -> run s1 l' s2 -> run s (l' ++ l) s2.
Proof. intros H1 H2. induction H2; [done|]. cbn. by constructor. Qed.
Lemma run_split s l s2 x l' : run s (l' ++ x :: l) s2 -> run s l (st_before x) /\ run (st_after x) l' s2.
Proof.
  revert s2. induction l' as [|y l' IH]; intros s2 H; cbn in H; inversion H; subst.
  - split; [done|]. constructor.
  - match goal with H : run s (l' ++ x :: l) _ |- _ => apply IH in H as [H1 H2] end. split; [done|]. by constructor.
Qed.
Lemma run_in s l s2 x : run s l s2 -> In x l -> exists o, x = step_of (st_before x) o.
Proof. induction 1; [done|]. intros [<-|H1]; [by eexists|auto]. Qed.
Lemma acts_for_fun r id id' : acts_for r id -> acts_for r id' -> id = id'.
Proof. intros [[H1 ->]|[H1 ->]] [[H2 ->]|[H2 ->]]; done. Qed.

(** ** One entry, one step *)
Definition code_rel (r : request) (secret code : string) : Prop :=
  presents_code secret r code \/ (code = "" /\ forall k, ~ presents_code secret r k).

Lemma access_step s o sg : let x := step_of s o in
  (exists ev r t c, served x ev r (OToken t) /\ names (server_secret s) (tr_access_token t) sg /\
     sv_access (st_after x) !! sg = Some c /\ acts_for r (cd_client_id c) /\ cd_scope c = tr_scope t /\
     cd_expires_at c = (ev_now_access ev + cfg_access_lifespan (sv_config s))%Z /\ code_rel r (server_secret s) (cd_code c) /\
     (cd_code c <> "" -> is_Some (sv_codes (st_after x) !! cd_code c))) \/
  (~ issues_access (server_secret s) x sg /\ sv_access (st_after x) !! sg = sv_access s !! sg) \/
  (~ issues_access (server_secret s) x sg /\ sv_access (st_after x) !! sg = None /\ exists c, sv_access s !! sg = Some c /\
     (revokes (server_secret s) x sg \/ refused_as_unknown (server_secret s) x (cd_code c) \/
      exists ev r e, served x ev r (OError e) /\ endpoint r "revoke" /\ names (server_secret s) (body_param r "token") sg /\
        e_name e = "invalid_client" /\ e_description e = "wrong client" /\ acts_for r (cd_client_id c))).
Proof.
  intros x. destruct (serve_dec o) as [(ev & r & ->)|Hn].
  2:{ apply (other_step s) in Hn as (_ & Ha & _ & _ & Hs). right. left. split; [|cbn; by rewrite Ha].
      intros (ev & r & out & Hx & _). by apply Hs in Hx. }
  assert (Hno : no_access s (handle ev s r) sg -> ~ issues_access (server_secret s) x sg).
  { intros Hna (ev' & r' & out & Hsv & t & -> & Hnm). apply served_step in Hsv as ([= <- <-] & s' & Hh). by eapply Hna. }
  assert (Hsv : forall s' out, handle ev s r = Done s' out -> served x ev r out).
  { intros s' out Hh. apply served_step. eauto. }
  unfold x. cbn [step_of st_after]. rewrite step_serve.
  destruct (access_effect ev s r sg) as [(t & c & Hh & Hnm & Hsg & Ha & Hsc & He & Hcs)|[[Hna Hsame]|(Hna & Hnone & c & Hc & Hwhy)]].
  - left. exists ev, r, t, c. split; [by eapply Hsv|]. do 5 (split; [done|]).
    destruct Hcs as [[Hp [d Hd]]|[Hcode Hp]].
    + split; [by left|]. intros _. destruct (code_effect ev s r (cd_code c)) as [(? & ? & _ & _ & Hd' & _)|[(_ & Hd' & _)|(_ & _ & d' & _ & _ & Hd')]];
        rewrite Hd'; by eauto.
    + split; [by right|]. done.
  - right. left. split; [by apply Hno|done].
  - right. right. split; [by apply Hno|]. split; [done|]. exists c. split; [done|].
    destruct Hwhy as [(s' & Hh & H1)|[(s' & e & Hh & H1)|(s' & e & Hh & H1)]].
    + left. exists ev, r. split; [by eapply Hsv|done].
    + right. left. exists ev, r, e. split; [by eapply Hsv|done].
    + right. right. exists ev, r, e. split; [by eapply Hsv|]. naive_solver.
Qed.
Lemma refresh_step s o sg : let x := step_of s o in
  (exists ev r t c, served x ev r (OToken t) /\ names (server_secret s) (tr_refresh_token t) sg /\
     ~ redeems_refresh (server_secret s) x sg /\
     sv_refresh (st_after x) !! sg = Some c /\ acts_for r (cd_client_id c) /\ cd_scope c = tr_scope t /\
     cd_expires_at c = (ev_now_refresh ev + cfg_refresh_lifespan (sv_config s))%Z /\ code_rel r (server_secret s) (cd_code c) /\
     (cd_code c <> "" -> is_Some (sv_codes (st_after x) !! cd_code c))) \/
  (~ issues_refresh (server_secret s) x sg /\ sv_refresh (st_after x) !! sg = sv_refresh s !! sg) \/
  (~ (issues_refresh (server_secret s) x sg /\ ~ redeems_refresh (server_secret s) x sg) /\
   sv_refresh (st_after x) !! sg = None /\ exists c, sv_refresh s !! sg = Some c /\
     (revokes (server_secret s) x sg \/ refused_as_unknown (server_secret s) x (cd_code c) \/ redeems_refresh (server_secret s) x sg)).
Proof.
  intros x. destruct (serve_dec o) as [(ev & r & ->)|Hn].
  2:{ apply (other_step s) in Hn as (_ & _ & Ha & _ & Hs). right. left. split; [|cbn; by rewrite Ha].
      intros (ev & r & out & Hx & _). by apply Hs in Hx. }
  assert (Hno : no_refresh s (handle ev s r) sg -> ~ issues_refresh (server_secret s) x sg).
  { intros Hna (ev' & r' & out & Hsv & t & -> & Hnm). apply served_step in Hsv as ([= <- <-] & s' & Hh). by eapply Hna. }
  assert (Hsv : forall s' out, handle ev s r = Done s' out -> served x ev r out).
  { intros s' out Hh. apply served_step. eauto. }
  assert (Hred : redeems_refresh (server_secret s) x sg -> refresh_answered ev s r sg).
  { intros (ev' & r' & t & Hx & Hp). apply served_step in Hx as ([= <- <-] & s' & Hh). by eexists _, _. }
  unfold x. cbn [step_of st_after]. rewrite step_serve.
  destruct (refresh_effect ev s r sg) as [(t & c & Hh & Hnm & Hnr & Hsg & Ha & Hsc & He & Hcs)|[[Hna Hsame]|(Hnone & c & Hc & Hwhy)]].
  - left. exists ev, r, t, c. split; [by eapply Hsv|]. split; [done|]. split; [by intros Hx; apply Hnr, Hred|]. do 4 (split; [done|]).
    destruct Hcs as [[Hp [d Hd]]|[Hcode Hp]].
    + split; [by left|]. intros _. destruct (code_effect ev s r (cd_code c)) as [(? & ? & _ & _ & Hd' & _)|[(_ & Hd' & _)|(_ & _ & d' & _ & _ & Hd')]];
        rewrite Hd'; by eauto.
    + split; [by right|]. done.
  - right. left. split; [by apply Hno|done].
  - right. right. split; [|split; [done|]; exists c; split; [done|]].
    + intros [(ev' & r' & out & Hx & t & -> & Hnm) Hnr]. apply served_step in Hx as ([= <- <-] & s' & Hh).
      destruct Hwhy as [(s1 & Hh1 & _)|[(s1 & e & Hh1 & _)|(s1 & t1 & Hh1 & Hp)]]; [congruence..|].
      apply Hnr. exists ev, r, t1. split; [by eapply Hsv|done].
    + destruct Hwhy as [(s' & Hh & H1)|[(s' & e & Hh & H1)|(s' & t & Hh & H1)]].
      * left. exists ev, r. split; [by eapply Hsv|done].
      * right. left. exists ev, r, e. split; [by eapply Hsv|done].
      * right. right. exists ev, r, t. split; [by eapply Hsv|done].
Qed.
Lemma code_step s o sg : let x := step_of s o in
  (exists ev r c d, served x ev r (OCode c) /\ names (server_secret s) (cr_code c) sg /\
     sv_codes (st_after x) !! sg = Some d /\ cd_used d = false /\ endpoint r "authorize" /\ rq_method r = "POST" /\
     cd_client_id d = form_param r "client_id" /\ cd_username d = body_param r "username" /\
     password_of s (body_param r "username") (body_param r "password") /\
     cd_scope d = parse_scope (form_param r "scope") /\ covers (cfg_allowed_scope (sv_config s)) (cd_scope d) /\
     query_unescape (form_param r "redirect_uri") = Some (cd_redirect_uri d) /\
     cd_expires_at d = (ev_now_code ev + cfg_code_lifespan (sv_config s))%Z /\ ~ redeems_code (server_secret s) x sg) \/
  (~ issues_code (server_secret s) x sg /\ sv_codes (st_after x) !! sg = sv_codes s !! sg /\
     forall d, sv_codes s !! sg = Some d -> cd_used d = false -> ~ redeems_code (server_secret s) x sg) \/
  (~ issues_code (server_secret s) x sg /\ redeems_code (server_secret s) x sg /\
   exists d, sv_codes s !! sg = Some d /\ cd_used d = false /\ sv_codes (st_after x) !! sg = Some (as_used d)).
Proof.
  intros x. destruct (serve_dec o) as [(ev & r & ->)|Hn].
  2:{ apply (other_step s) in Hn as (_ & _ & _ & Ha & Hs). right. left. split; [|split; [cbn; by rewrite Ha|]].
      - intros (ev & r & out & Hx & _). by apply Hs in Hx.
      - intros d _ _ (ev & r & out & Hx & _). by apply Hs in Hx. }
  assert (Hno : no_code s (handle ev s r) sg -> ~ issues_code (server_secret s) x sg).
  { intros Hna (ev' & r' & out & Hsv & t & -> & Hnm). apply served_step in Hsv as ([= <- <-] & s' & Hh). by eapply Hna. }
  assert (Hsv : forall s' out, handle ev s r = Done s' out -> served x ev r out).
  { intros s' out Hh. apply served_step. eauto. }
  assert (Hred : redeems_code (server_secret s) x sg <-> redeem_answered ev s r sg).
  { split; [intros (ev' & r' & t & Hx & Hp); apply served_step in Hx as ([= <- <-] & s' & Hh); by eexists _, _|].
    intros (s' & t & Hh & Hp). exists ev, r, t. split; [by eapply Hsv|done]. }
  unfold x in *. cbn [step_of st_after]. rewrite step_serve.
  destruct (code_effect ev s r sg) as [(c & d & Hh & H1)|[(Hna & Hsame & Hnr)|(Hna & Hr & d & H1)]].
  - left. exists ev, r, c, d. split; [by eapply Hsv|]. rewrite Hred. unfold redeem_answered.
    destruct H1 as (?&?&?&?&?&?&?&?&?&?&?&?). split_and!; try done. intros (? & ? & Hx & _). congruence.
  - right. left. split; [by apply Hno|]. split; [done|]. intros d Hd Hu. rewrite Hred. eauto.
  - right. right. split; [by apply Hno|]. split; [by apply Hred|]. eauto.
Qed.

(** Removal by visible answers. *)
Lemma revokes_removes s o sg : revokes (server_secret s) (step_of s o) sg ->
  sv_access (fst (do_op s o)) !! sg = None /\ sv_refresh (fst (do_op s o)) !! sg = None.
Proof.
  intros (ev & r & Hs & He & Hn). apply served_step in Hs as (-> & s' & Hh). rewrite step_serve. apply revoke_removes. by exists s'.
Qed.
Lemma unknown_removes s o k : refused_as_unknown (server_secret s) (step_of s o) k -> is_Some (sv_codes s !! k) ->
  without_code k (sv_access s) (sv_access (fst (do_op s o))) /\ without_code k (sv_refresh s) (sv_refresh (fst (do_op s o))).
Proof.
  intros (ev & r & e & Hs & Hp & H1 & H2). apply served_step in Hs as (-> & s' & Hh). rewrite step_serve.
  apply unknown_code_replay. by exists s', e.
Qed.
Lemma redeems_removes s o sg : redeems_refresh (server_secret s) (step_of s o) sg -> sv_refresh (fst (do_op s o)) !! sg = None.
Proof.
  intros (ev & r & t & Hs & Hp). apply served_step in Hs as (-> & s' & Hh). rewrite step_serve. apply refreshed_removes. by exists s', t.
Qed.

(** Codes are never removed. *)
Lemma codes_persist_step s o k : is_Some (sv_codes s !! k) -> is_Some (sv_codes (fst (do_op s o)) !! k).
Proof.
  intros H. destruct (code_step s o k) as [(? & ? & ? & d & _ & _ & Hd & _)|[(_ & Hd & _)|(_ & _ & d & _ & _ & Hd)]];
    cbn in Hd; rewrite Hd; eauto.
Qed.
Lemma codes_persist s l s' k : run s l s' -> is_Some (sv_codes s !! k) -> is_Some (sv_codes s' !! k).
Proof. induction 1; [done|]. intros Hk. apply codes_persist_step. auto. Qed.

(** ** The life of an access token *)
Definition access_story (cfg : server_config) (l : list step) (s : server) (sg : string) : Prop :=
  let P x := issues_access (cfg_secret cfg) x sg in
  match sv_access s !! sg with
  | Some c => exists x later ev r t, last_step P l x later /\ served x ev r (OToken t) /\
      names (cfg_secret cfg) (tr_access_token t) sg /\
      acts_for r (cd_client_id c) /\ cd_scope c = tr_scope t /\
      cd_expires_at c = (ev_now_access ev + cfg_access_lifespan cfg)%Z /\
      code_rel r (cfg_secret cfg) (cd_code c) /\
      (cd_code c <> "" -> is_Some (sv_codes s !! cd_code c)) /\
      forall y, In y later -> ~ ends_access (cfg_secret cfg) x y sg
  | None => forall x later, last_step P l x later -> exists y, In y later /\ ends_access (cfg_secret cfg) x y sg
  end.

Lemma last_step_cons P l y x later : last_step P (y :: l) x later <->
  (P y /\ x = y /\ later = []) \/ (~ P y /\ exists later', later = y :: later' /\ last_step P l x later').
Proof.
  split.
  - intros (earlier & H & HP & HN). destruct later as [|z later']; cbn in H; injection H as -> H.
    + left. done.
    + right. split; [apply HN; by left|]. exists later'. split; [done|]. exists earlier. split; [done|]. split; [done|].
      intros y' Hy. apply HN. by right.
  - intros [(HP & -> & ->)|(HN & later' & -> & earlier & -> & HP & HN')].
    + exists l. split; [done|]. split; [done|]. intros ? [].
    + exists earlier. split; [done|]. split; [done|]. intros y' [<-|Hy]; [done|auto].
Qed.
Lemma last_step_fun P l x later x' later' : last_step P l x later -> last_step P l x' later' -> x = x' /\ later = later'.
Proof.
  revert later later'. induction l as [|y l IH]; intros later later' H1 H2.
  - destruct H1 as (e & H & _). by destruct later.
  - apply last_step_cons in H1, H2. destruct H1 as [(H1 & -> & ->)|(H1 & l1 & -> & Hl1)], H2 as [(H2 & -> & ->)|(H2 & l2 & -> & Hl2)]; try done.
    destruct (IH _ _ Hl1 Hl2) as [-> ->]. done.
Qed.

Lemma access_life cfg l s sg : history cfg l s -> access_story cfg l s sg.
Proof.
  intros H. induction H as [|l s o H IH].
  { unfold access_story. cbn. rewrite lookup_empty. intros x later (e & Hx & _). by destruct later. }
  pose proof (history_config _ _ _ H) as Hcfg. pose proof (history_secret _ _ _ H) as Hsec.
  unfold access_story in *. pose proof (access_step s o sg) as Hst. cbv zeta in Hst. set (y := step_of s o) in *. change (fst (do_op s o)) with (st_after y).
  destruct Hst as [(ev & r & t & c & Hsv & Hn & Hsg & Ha & Hsc & He & Hcr & Hcode)|[(Hni & Hsame)|(Hni & Hnone & c & Hc & Hwhy)]];
    rewrite ?Hsec, ?Hcfg in *.
  - rewrite Hsg. exists y, [], ev, r, t. split.
    { apply last_step_cons. left. split; [|done]. exists ev, r, (OToken t). split; [done|]. by exists t. }
    split_and!; try done; by intros ? [].
  - rewrite Hsame. destruct (sv_access s !! sg) as [c|] eqn:Esg.
    + destruct IH as (x & later & ev & r & t & Hl & Hsv & Hn & Ha & Hsc & He & Hcr & Hcode & Hend).
      exists x, (y :: later), ev, r, t. split; [apply last_step_cons; right; split; [done|by exists later]|].
      do 6 (split; [done|]). split; [intros Hx; apply codes_persist_step; auto|].
      intros z [<-|Hz]; [|auto]. intros [Hr|[(k & Hk & Hu)|(ev1 & r1 & e1 & ev2 & r2 & o2 & id & Hs1 & He1 & Hn1 & Hd1 & Hd2 & Hs2 & Ha2 & Ha1)]].
      * unfold y in Hr. rewrite <- Hsec in Hr. apply revokes_removes in Hr as [Hr _]. change (sv_access (st_after y) !! sg = None) in Hr. congruence.
      * destruct Hk as (ev1 & r1 & t1 & Hs1 & Hp1). destruct (served_fun _ _ _ _ _ _ _ Hsv Hs1) as (<- & <- & [= <-]).
        destruct Hcr as [Hp|[_ Hp]]; [|by apply Hp in Hp1].
        assert (k = cd_code c) as ->.
        { destruct Hp as (_ & _ & Hp), Hp1 as (_ & _ & Hp1). by eapply names_fun. }
        unfold y in Hu. rewrite <- Hsec in Hu. apply unknown_removes in Hu as [Hu _].
        2:{ apply Hcode. destruct Hp as (_ & _ & Hp). by eapply names_nonempty. }
        change (fst (do_op s o)) with (st_after y) in Hu. assert (Hx : sv_access (st_after y) !! sg = Some c) by congruence. apply Hu in Hx as [_ Hx]. done.
      * destruct (served_fun _ _ _ _ _ _ _ Hsv Hs2) as (<- & <- & <-).
        pose proof (acts_for_fun _ _ _ Ha Ha2) as <-.
        unfold y in Hs1. apply served_step in Hs1 as (Ho & s' & Hh). 
        assert (sv_access (res_server (handle ev1 s r1)) !! sg = None) as Hx.
        { apply (half_removes _ _ _ _ c); [|done]. exists s', e1. rewrite Hsec. done. }
        unfold y in Hsame. rewrite Ho in Hsame. cbn [step_of st_after] in Hsame. rewrite step_serve in Hsame. congruence.
    + intros x later Hl. apply last_step_cons in Hl as [(Hi & _)|(_ & l' & -> & Hl)]; [done|].
      destruct (IH _ _ Hl) as (z & Hz & Hend). exists z. split; [by right|done].
  - rewrite Hnone. intros x later Hl. apply last_step_cons in Hl as [(Hi & _)|(_ & l' & -> & Hl)]; [done|].
    rewrite Hc in IH. destruct IH as (x' & later' & ev & r & t & Hl' & Hsv & Hn & Ha & Hsc & He & Hcr & Hcode & _).
    destruct (last_step_fun _ _ _ _ _ _ Hl Hl') as [-> ->]. exists y. split; [by left|].
    destruct Hwhy as [Hr|[Hu|(ev1 & r1 & e1 & Hs1 & He1 & Hn1 & Hd1 & Hd2 & Ha1)]].
    + by left.
    + right. left. exists (cd_code c). split; [|done]. exists ev, r, t. split; [done|].
      destruct Hcr as [Hp|[Hx _]]; [done|]. exfalso. destruct Hu as (? & ? & ? & _ & (_ & _ & Hu) & _). by apply names_nonempty in Hu.
    + right. right. exists ev1, r1, e1, ev, r, (OToken t), (cd_client_id c). done.
Qed.

(** ** The life of a refresh token *)
Definition refresh_story (cfg : server_config) (l : list step) (s : server) (sg : string) : Prop :=
  let P x := issues_refresh (cfg_secret cfg) x sg /\ ~ redeems_refresh (cfg_secret cfg) x sg in
  match sv_refresh s !! sg with
  | Some c => exists x later ev r t, last_step P l x later /\ served x ev r (OToken t) /\
      names (cfg_secret cfg) (tr_refresh_token t) sg /\
      acts_for r (cd_client_id c) /\ cd_scope c = tr_scope t /\
      cd_expires_at c = (ev_now_refresh ev + cfg_refresh_lifespan cfg)%Z /\
      code_rel r (cfg_secret cfg) (cd_code c) /\
      (cd_code c <> "" -> is_Some (sv_codes s !! cd_code c)) /\
      forall y, In y later -> ~ ends_refresh (cfg_secret cfg) x y sg
  | None => forall x later, last_step P l x later -> exists y, In y later /\ ends_refresh (cfg_secret cfg) x y sg
  end.
Lemma refresh_life cfg l s sg : history cfg l s -> refresh_story cfg l s sg.
Proof.
  intros H. induction H as [|l s o H IH].
  { unfold refresh_story. cbn. rewrite lookup_empty. intros x later (e & Hx & _). by destruct later. }
  pose proof (history_config _ _ _ H) as Hcfg. pose proof (history_secret _ _ _ H) as Hsec.
  unfold refresh_story in *. pose proof (refresh_step s o sg) as Hst. cbv zeta in Hst. set (y := step_of s o) in *. change (fst (do_op s o)) with (st_after y).
  destruct Hst as [(ev & r & t & c & Hsv & Hn & Hnr & Hsg & Ha & Hsc & He & Hcr & Hcode)|[(Hni & Hsame)|(Hni & Hnone & c & Hc & Hwhy)]];
    rewrite ?Hsec, ?Hcfg in *.
  - rewrite Hsg. exists y, [], ev, r, t. split.
    { apply last_step_cons. left. split; [|done]. split; [|done]. exists ev, r, (OToken t). split; [done|]. by exists t. }
    split_and!; try done; by intros ? [].
  - rewrite Hsame. destruct (sv_refresh s !! sg) as [c|] eqn:Esg.
    + destruct IH as (x & later & ev & r & t & Hl & Hsv & Hn & Ha & Hsc & He & Hcr & Hcode & Hend).
      exists x, (y :: later), ev, r, t. split; [apply last_step_cons; right; split; [tauto|by exists later]|].
      do 6 (split; [done|]). split; [intros Hx; apply codes_persist_step; auto|].
      intros z [<-|Hz]; [|auto]. intros [Hr|[Hr|(k & Hk & Hu)]].
      * unfold y in Hr. rewrite <- Hsec in Hr. apply revokes_removes in Hr as [_ Hr]. change (sv_refresh (st_after y) !! sg = None) in Hr. congruence.
      * unfold y in Hr. rewrite <- Hsec in Hr. apply redeems_removes in Hr. change (sv_refresh (st_after y) !! sg = None) in Hr. congruence.
      * destruct Hk as (ev1 & r1 & t1 & Hs1 & Hp1). destruct (served_fun _ _ _ _ _ _ _ Hsv Hs1) as (<- & <- & [= <-]).
        destruct Hcr as [Hp|[_ Hp]]; [|by apply Hp in Hp1].
        assert (k = cd_code c) as ->.
        { destruct Hp as (_ & _ & Hp), Hp1 as (_ & _ & Hp1). by eapply names_fun. }
        unfold y in Hu. rewrite <- Hsec in Hu. apply unknown_removes in Hu as [_ Hu].
        2:{ apply Hcode. destruct Hp as (_ & _ & Hp). by eapply names_nonempty. }
        change (fst (do_op s o)) with (st_after y) in Hu. assert (Hx : sv_refresh (st_after y) !! sg = Some c) by congruence. apply Hu in Hx as [_ Hx]. done.
    + intros x later Hl. apply last_step_cons in Hl as [(Hi & _)|(_ & l' & -> & Hl)]; [tauto|].
      destruct (IH _ _ Hl) as (z & Hz & Hend). exists z. split; [by right|done].
  - rewrite Hnone. intros x later Hl. apply last_step_cons in Hl as [(Hi & _)|(_ & l' & -> & Hl)]; [done|].
    rewrite Hc in IH. destruct IH as (x' & later' & ev & r & t & Hl' & Hsv & Hn & Ha & Hsc & He & Hcr & Hcode & _).
    destruct (last_step_fun _ _ _ _ _ _ Hl Hl') as [-> ->]. exists y. split; [by left|].
    destruct Hwhy as [Hr|[Hu|Hr]].
    + by left.
    + right. right. exists (cd_code c). split; [|done]. exists ev, r, t. split; [done|].
      destruct Hcr as [Hp|[Hx _]]; [done|]. exfalso. destruct Hu as (? & ? & ? & _ & (_ & _ & Hu) & _). by apply names_nonempty in Hu.
    + right. left. done.
Qed.

(** ** The life of a code *)
Definition code_story (cfg : server_config) (l : list step) (s : server) (sg : string) : Prop :=
  let P x := issues_code (cfg_secret cfg) x sg in
  match sv_codes s !! sg with
  | Some d => exists x later ev r c, last_step P l x later /\ served x ev r (OCode c) /\
      names (cfg_secret cfg) (cr_code c) sg /\ endpoint r "authorize" /\ rq_method r = "POST" /\
      cd_client_id d = form_param r "client_id" /\ cd_username d = body_param r "username" /\
      password_of (st_before x) (body_param r "username") (body_param r "password") /\
      cd_scope d = parse_scope (form_param r "scope") /\ covers (cfg_allowed_scope cfg) (cd_scope d) /\
      query_unescape (form_param r "redirect_uri") = Some (cd_redirect_uri d) /\
      cd_expires_at d = (ev_now_code ev + cfg_code_lifespan cfg)%Z /\
      (cd_used d = false <-> forall y, In y later -> ~ redeems_code (cfg_secret cfg) y sg)
  | None => forall x, In x l -> ~ P x
  end.
Lemma code_life cfg l s sg : history cfg l s -> code_story cfg l s sg.
Proof.
  intros H. induction H as [|l s o H IH].
  { unfold code_story. cbn. rewrite lookup_empty. intros x []. }
  pose proof (history_config _ _ _ H) as Hcfg. pose proof (history_secret _ _ _ H) as Hsec.
  unfold code_story in *. pose proof (code_step s o sg) as Hst. cbv zeta in Hst. set (y := step_of s o) in *. change (fst (do_op s o)) with (st_after y).
  destruct Hst as [(ev & r & c & d & Hsv & Hn & Hd & Hu & H1 & H2 & H3 & H4 & H5 & H6 & H7 & H8 & H9 & H10)|[(Hni & Hsame & Hnr)|(Hni & Hr & d & Hd & Hu & Hd')]];
    rewrite ?Hsec, ?Hcfg in *.
  - rewrite Hd. exists y, [], ev, r, c. split.
    { apply last_step_cons. left. split; [|done]. exists ev, r, (OCode c). split; [done|]. by exists c. }
    split_and!; try done; by intros _ ? [].
  - rewrite Hsame. destruct (sv_codes s !! sg) as [d|] eqn:Esg.
    + destruct IH as (x & later & ev & r & c & Hl & Hsv & Hn & H1 & H2 & H3 & H4 & H5 & H6 & H7 & H8 & H9 & Hus).
      exists x, (y :: later), ev, r, c. split; [apply last_step_cons; right; split; [done|by exists later]|].
      do 11 (split; [done|]). rewrite Hus. split.
      * intros Hx z [<-|Hz]; [|auto]. eapply Hnr; [done|]. by apply Hus.
      * intros Hx z Hz. apply Hx. by right.
    + intros x [<-|Hx]; [done|auto].
  - rewrite Hd'. rewrite Hd in IH. 
    destruct IH as (x & later & ev & r & c & Hl & Hsv & Hn & H1 & H2 & H3 & H4 & H5 & H6 & H7 & H8 & H9 & Hus).
    exists x, (y :: later), ev, r, c. split; [apply last_step_cons; right; split; [done|by exists later]|].
    do 11 (split; [done|]). split; [done|]. intros Hx. exfalso. apply (Hx y); [by left|done].
Qed.
