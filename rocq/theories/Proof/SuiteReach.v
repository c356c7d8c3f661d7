(** The states the server goes through while the tests run. *)
From Verif.Model Require Import Client Suite.
From Verif.Spec Require Import TokenSpec ScopeSpec WireSpec RequestSpec ServerSpec NumberSpec SuiteSpec.
From Verif.Proof Require Import StrFacts Base64Facts HsFacts TokenProofs UrlFacts UrlParse DecFacts JsonFacts CodecFacts CodecProofs
  ScopeFacts ScopeProofs WireFacts WireProofs Redirect ServerFacts Steps RequestProofs RequestParse ServerProofs GrantProofs
  EffectProofs Effects ClientProofs SuiteFacts SuiteSteps.

Section Reach.
Context (sp : spec) (s0 : server) (t0 t1 : Z) (evs0 : list env) (required : scope) (l : list string).
Let sec := server_secret s0.
Let draw evs := flat_map (draws s0) evs.

(** The keys whose entries the tests rely on. *)
Definition KA (k : string) : Prop :=
  names sec (sp_unknown_token sp) k \/ names sec (sp_valid_token sp) k \/
  (sp_refresh_grant sp = true /\ names sec (sp_valid_refresh sp) k).
Definition KR (k : string) : Prop :=
  names sec (sp_unknown_token sp) k \/ names sec (sp_valid_token sp) k \/
  (sp_refresh_grant sp = true /\
    (names sec (sp_valid_refresh sp) k \/ names sec (sp_unknown_refresh sp) k \/ names sec (sp_expired_refresh sp) k)).
Definition KC (k : string) : Prop :=
  sp_code_grant sp = true /\ (names sec (sp_unknown_code sp) k \/ names sec (sp_expired_code sp) k).

Definition uncoded (m : gmap string credential) (k : string) : Prop :=
  forall c, m !! k = Some c -> cd_code c = "".

Record reach (X : list string) (s : server) (evs : list env) : Prop := {
  re_registry : same_registry s0 s;
  re_access : forall k, KA k -> ~ In k X -> sv_access s !! k = sv_access s0 !! k;
  re_refresh : forall k, KR k -> ~ In k X -> sv_refresh s !! k = sv_refresh s0 !! k;
  re_codes : forall k, KC k -> ~ In k X -> sv_codes s !! k = sv_codes s0 !! k;
  re_later : exists pre, evs0 = pre ++ evs;
  re_fresh : forall k, In k (draw evs) ->
    sv_access s !! k = None /\ sv_refresh s !! k = None /\ sv_codes s !! k = None
}.

Hypothesis times : Forall (in_time s0 t0 t1) evs0.
Hypothesis random : fresh_randomness sp s0 evs0.
Hypothesis tokens : tokens_described sp s0 required t0 t1.
Hypothesis refreshes : refresh_described sp s0 l t0 t1.
Hypothesis codes : codes_described sp s0 t0.

Lemma reach_start : reach [] s0 evs0.
Proof.
  split; try done; [by exists []|]. intros k Hk. destruct random as (_ & _ & H). destruct (H k Hk) as (? & ? & ? & _). done.
Qed.

(** A drawn key is not one of those. *)
Lemma drawn_other k : In k (draw evs0) -> ~ KA k /\ ~ KR k /\ ~ KC k.
Proof.
  intros Hk. destruct random as (_ & _ & H). destruct (H k Hk) as (Ha & Hr & Hc & Hn).
  destruct tokens as (_ & _ & (sgv & cv & Hnv & Hav & _) & _).
  assert (H1 : ~ names sec (sp_unknown_token sp) k) by (apply Hn; by left).
  assert (H2 : ~ names sec (sp_valid_token sp) k).
  { intros Hx. rewrite (names_fun _ _ _ _ Hx Hnv) in Ha. congruence. }
  assert (H3 : sp_refresh_grant sp = true -> ~ names sec (sp_valid_refresh sp) k /\ ~ names sec (sp_unknown_refresh sp) k /\ ~ names sec (sp_expired_refresh sp) k).
  { intros Hg. destruct (refreshes Hg) as (_ & _ & (sgr & cr & Hnr & Har & _) & (ce & (sge & Hne & Hae) & _)).
    split; [|split].
    - intros Hx. rewrite (names_fun _ _ _ _ Hx Hnr) in Hr. congruence.
    - apply Hn. right. by left.
    - intros Hx. rewrite (names_fun _ _ _ _ Hx Hne) in Hr. congruence. }
  split; [|split].
  - intros [Hx|[Hx|[Hg Hx]]]; [by apply H1|by apply H2|]. destruct (H3 Hg) as (? & _). tauto.
  - intros [Hx|[Hx|[Hg Hx]]]; [by apply H1|by apply H2|]. destruct (H3 Hg) as (? & ? & ?). tauto.
  - intros [Hg [Hx|Hx]].
    + apply (Hn (sp_unknown_code sp)); [right; right; by left|exact Hx].
    + destruct (codes Hg) as (_ & _ & (ce & (sge & Hne & Hae) & _)). rewrite (names_fun _ _ _ _ Hx Hne) in Hc. congruence.
Qed.

Lemma KA_uncoded k : KA k -> uncoded (sv_access s0) k.
Proof.
  destruct tokens as (_ & (sgu & Hnu & Hu) & (sgv & cv & Hnv & Hav & _ & _ & _ & _ & Hcc & _) & _).
  inversion Hu as [|? ? Hu1 Hu']; subst. 
  intros [Hx|[Hx|[Hg Hx]]] c Hc.
  - rewrite (names_fun _ _ _ _ Hx Hnu) in Hc. congruence.
  - rewrite (names_fun _ _ _ _ Hx Hnv) in Hc. congruence.
  - destruct (refreshes Hg) as (_ & _ & (sgr & cr & Hnr & _ & Har & _) & _).
    rewrite (names_fun _ _ _ _ Hx Hnr) in Hc. congruence.
Qed.
Lemma KR_uncoded k : KR k -> uncoded (sv_refresh s0) k.
Proof.
  destruct tokens as (_ & (sgu & Hnu & Hu) & (sgv & cv & Hnv & Hav & Hrv & _) & _).
  inversion Hu as [|? ? _ Hu']; subst. inversion Hu' as [|? ? Hu2 _]; subst.
  intros [Hx|[Hx|[Hg Hx]]] c Hc.
  - rewrite (names_fun _ _ _ _ Hx Hnu) in Hc. congruence.
  - rewrite (names_fun _ _ _ _ Hx Hnv) in Hc. congruence.
  - destruct (refreshes Hg) as (_ & (sgw & Hnw & Hw) & (sgr & cr & Hnr & Har & _ & _ & _ & _ & Hcc & _) & (ce & (sge & Hne & Hae) & _ & Hce)).
    inversion Hw as [|? ? Hw1 _]; subst.
    destruct Hx as [Hx|[Hx|Hx]].
    + rewrite (names_fun _ _ _ _ Hx Hnr) in Hc. congruence.
    + rewrite (names_fun _ _ _ _ Hx Hnw) in Hc. congruence.
    + rewrite (names_fun _ _ _ _ Hx Hne) in Hc. congruence.
Qed.

Lemma in_later evs ev k : (exists pre, evs0 = pre ++ evs) -> In ev evs -> In k (draws s0 ev) -> In k (draw evs0).
Proof. intros [pre ->] Hin Hk. unfold draw. apply in_flat_map. exists ev. split; [apply in_or_app; by right|done]. Qed.

Lemma reach_tail X s ev evs : reach X s (ev :: evs) -> reach X s evs.
Proof.
  intros [H1 H2 H3 H4 [pre H5] H6]. split; try done.
  - exists (pre ++ [ev]). by rewrite <- app_assoc.
  - intros k Hk. apply H6. unfold draw. cbn [flat_map]. apply in_or_app. by right.
Qed.
Lemma reach_time X s ev evs : reach X s (ev :: evs) -> in_time s0 t0 t1 ev.
Proof. intros [_ _ _ _ [pre ->] _]. apply Forall_app in times as [_ Ht]. by inversion Ht. Qed.
Lemma reach_random X s ev evs : reach X s (ev :: evs) -> enough_random ev s 2.
Proof.
  intros [[Hc _] _ _ _ [pre ->] _]. destruct random as [Hr _]. apply Forall_app in Hr as [_ Hr]. inversion Hr; subst.
  unfold enough_random in *. by rewrite Hc.
Qed.
Lemma reach_nodup X s ev evs : reach X s (ev :: evs) ->
  NoDup (draws s0 ev) /\ forall k, In k (draws s0 ev) -> ~ In k (draw evs).
Proof.
  intros [_ _ _ _ [pre He] _]. destruct random as (_ & Hn & _). rewrite He, flat_map_app in Hn.
  apply NoDup_app in Hn as (_ & _ & Hn). cbn [flat_map] in Hn. apply NoDup_app in Hn as (Hd & Hx & _).
  split; [done|]. intros k Hk Hk'. apply (Hx k); by apply elem_of_list_In.
Qed.
Lemma reach_weaken X Y s evs : incl X Y -> reach X s evs -> reach Y s evs.
Proof. intros Hi [H1 H2 H3 H4 H5 H6]. split; try done; intros k Hk Hn; [apply H2|apply H3|apply H4]; auto. Qed.

(** ** Changes *)

(** A change at keys the tests do not rely on. *)
Definition touchable (X : list string) (k : string) : Prop := In k X \/ (~ KA k /\ ~ KR k /\ ~ KC k).
Lemma drawn_touchable X k : In k (draw evs0) -> touchable X k.
Proof. intros H. right. by apply drawn_other. Qed.

Lemma reach_update X s s' evs (T : string -> Prop) : reach X s evs -> same_registry s s' ->
  (forall k, T k -> touchable X k) -> (forall k, T k -> ~ In k (draw evs)) ->
  (forall k, ~ T k -> sv_access s' !! k = sv_access s !! k /\ sv_refresh s' !! k = sv_refresh s !! k /\ sv_codes s' !! k = sv_codes s !! k) ->
  reach X s' evs.
Proof.
  intros [H1 H2 H3 H4 H5 H6] Hr Ht Hd Hs.
  assert (Hk : forall k, ~ In k X -> KA k \/ KR k \/ KC k -> ~ T k).
  { intros k Hn Hk HT. destruct (Ht k HT) as [?|(? & ? & ?)]; [done|]. tauto. }
  split; [ | | | |done| ].
  - destruct H1 as (? & ? & ?), Hr as (? & ? & ?). repeat split; congruence.
  - intros k HK Hn. rewrite <- H2 by done. apply Hs, Hk; [done|tauto].
  - intros k HK Hn. rewrite <- H3 by done. apply Hs, Hk; [done|tauto].
  - intros k HK Hn. rewrite <- H4 by done. apply Hs, Hk; [done|tauto].
  - intros k Hin. destruct (Hs k) as (-> & -> & ->); [intros HT; by apply (Hd k)|]. by apply H6.
Qed.

Lemma reach_delete_access X s evs k : reach X s evs -> touchable X k ->
  reach X (set_access s (delete k (sv_access s))) evs.
Proof.
  intros [H1 H2 H3 H4 H5 H6] Ht. split; try done; cbn [sv_access sv_refresh sv_codes set_access].
  - intros k' HK Hn. rewrite lookup_delete_ne; [by apply H2|]. intros <-. destruct Ht as [?|(? & _)]; done.
  - intros k' Hin. destruct (H6 k' Hin) as (? & ? & ?). split; [|done]. destruct (decide (k = k')) as [->|]; [apply lookup_delete|by rewrite lookup_delete_ne].
Qed.
Lemma reach_delete_refresh X s evs k : reach X s evs -> touchable X k ->
  reach X (set_refresh s (delete k (sv_refresh s))) evs.
Proof.
  intros [H1 H2 H3 H4 H5 H6] Ht. split; try done; cbn [sv_access sv_refresh sv_codes set_refresh].
  - intros k' HK Hn. rewrite lookup_delete_ne; [by apply H3|]. intros <-. destruct Ht as [?|(? & ? & _)]; done.
  - intros k' Hin. destruct (H6 k' Hin) as (? & ? & ?). split; [done|]. split; [|done]. destruct (decide (k = k')) as [->|]; [apply lookup_delete|by rewrite lookup_delete_ne].
Qed.

Lemma without_lookup sg m m' k : without_code sg m m' -> uncoded m k -> sg <> "" -> m' !! k = m !! k.
Proof.
  intros Hw Hu Hne. apply option_eq. intros c. rewrite (Hw k c). split; [by intros []|]. intros Hc. split; [done|].
  rewrite (Hu c Hc). congruence.
Qed.
Lemma without_none sg m m' k : without_code sg m m' -> m !! k = None -> m' !! k = None.
Proof. intros Hw Hn. destruct (m' !! k) as [c|] eqn:E; [|done]. apply Hw in E as [E _]. congruence. Qed.

Lemma reach_replay X s evs sg : reach X s evs -> sg <> "" ->
  reach X {| sv_config := sv_config s; sv_clients := sv_clients s; sv_users := sv_users s;
             sv_access := revoke_code sg (sv_access s); sv_refresh := revoke_code sg (sv_refresh s); sv_codes := sv_codes s |} evs.
Proof.
  intros [H1 H2 H3 H4 H5 H6] Hne. split; try done; cbn [sv_access sv_refresh sv_codes].
  - intros k HK Hn. rewrite <- H2 by done. apply (without_lookup sg); [apply revoke_code_without| |done].
    intros c Hc. rewrite H2 in Hc by done. by apply (KA_uncoded k).
  - intros k HK Hn. rewrite <- H3 by done. apply (without_lookup sg); [apply revoke_code_without| |done].
    intros c Hc. rewrite H3 in Hc by done. by apply (KR_uncoded k).
  - intros k Hin. destruct (H6 k Hin) as (? & ? & ?). split; [|split]; [| |done];
      (eapply without_none; [apply revoke_code_without|done]).
Qed.

(** ** New tokens *)
Lemma draws_both ev s a src f src' : same_registry s0 s ->
  cfg_must_generate (sv_config s) (ev_rand ev) = Some (a, src) ->
  cfg_must_generate (sv_config s) src = Some (f, src') ->
  draws s0 ev = [signature_string a; signature_string f].
Proof. intros (Hc & _) H1 H2. unfold draws. rewrite <- Hc, H1, H2. done. Qed.

Definition both_issued (s s' : server) (t : token_response) (ev : env) (sc : scope) (client user code : string) (a f : string) : Prop :=
  names sec (tr_access_token t) a /\ names sec (tr_refresh_token t) f /\
  tr_scope t = sc /\ tr_token_type t = "bearer" /\ tr_state t = "" /\ tr_redirect_uri t = "" /\
  tr_expires_in t = Z.quot (cfg_access_lifespan (sv_config s0)) 1000000000 /\
  s' = {| sv_config := sv_config s; sv_clients := sv_clients s; sv_users := sv_users s;
          sv_access := <[a := new_cred client user (ev_now_access ev + cfg_access_lifespan (sv_config s0))%Z sc code]> (sv_access s);
          sv_refresh := <[f := new_cred client user (ev_now_refresh ev + cfg_refresh_lifespan (sv_config s0))%Z sc code]> (sv_refresh s);
          sv_codes := sv_codes s |} /\
  a <> f /\ In a (draw evs0) /\ In f (draw evs0) /\
  valid_utf8 (tr_access_token t) /\ valid_utf8 (tr_refresh_token t) /\
  tr_access_token t <> "" /\ tr_refresh_token t <> "".

Lemma in_time_facts ev : in_time s0 t0 t1 ev ->
  (t0 <= ev_now_check ev <= t1)%Z /\
  (t1 <= ev_now_access ev + cfg_access_lifespan (sv_config s0))%Z /\
  (t1 <= ev_now_refresh ev + cfg_refresh_lifespan (sv_config s0))%Z /\
  (t1 <= ev_now_code ev + cfg_code_lifespan (sv_config s0))%Z.
Proof. unfold in_time. cbv zeta. lia. Qed.
Lemma in_time_seconds ev : in_time s0 t0 t1 ev ->
  int64 ((ev_now_access ev + cfg_access_lifespan (sv_config s0)) / 1000000000) /\
  int64 ((ev_now_refresh ev + cfg_refresh_lifespan (sv_config s0)) / 1000000000).
Proof.
  unfold in_time, int64. cbv zeta. intros (H1 & H2 & H3 & H4 & H5 & H6 & H7 & H8 & H9 & H10).
  assert (Hmono : forall a b, (a <= b)%Z -> (a / 1000000000 <= b / 1000000000)%Z) by (intros a b H; by apply Z.div_le_mono).
  split.
  - pose proof (Hmono t0 (ev_now_access ev + cfg_access_lifespan (sv_config s0))%Z ltac:(lia)).
    pose proof (Hmono (ev_now_access ev + cfg_access_lifespan (sv_config s0))%Z (t1 + cfg_access_lifespan (sv_config s0))%Z ltac:(lia)). lia.
  - pose proof (Hmono t0 (ev_now_refresh ev + cfg_refresh_lifespan (sv_config s0))%Z ltac:(lia)).
    pose proof (Hmono (ev_now_refresh ev + cfg_refresh_lifespan (sv_config s0))%Z (t1 + cfg_refresh_lifespan (sv_config s0))%Z ltac:(lia)). lia.
Qed.

Lemma issue_both_ok X s ev evs sc client user code : reach X s (ev :: evs) ->
  exists s' t a f, issue_tokens ev s true sc client user code = Some (s', t) /\
    both_issued s s' t ev sc client user code a f /\ reach X s' evs /\
    sv_access s !! a = None /\ sv_refresh s !! a = None /\ sv_access s !! f = None /\ sv_refresh s !! f = None /\
    sv_codes s !! a = None /\ sv_codes s !! f = None.
Proof.
  intros Hr. pose proof (reach_random X s ev evs Hr) as Hen. apply (issue_both_enough ev s sc client user code) in Hen as [[s' t] Hi].
  pose proof (issue_both_spec ev s sc client user code) as Hs. rewrite Hi in Hs.
  destruct Hs as (a & src & f & src' & Hg & Hg' & -> & ->).
  pose proof (re_registry _ _ _ Hr) as Hreg.
  pose proof (draws_both ev s a src f src' Hreg Hg Hg') as Hd.
  destruct (reach_nodup X s ev evs Hr) as [Hnd Hfr]. rewrite Hd in Hnd, Hfr.
  assert (Hsec : cfg_secret (sv_config s) = sec) by (unfold sec, server_secret; by destruct Hreg as [-> _]).
  assert (Hne : signature_string a <> signature_string f).
  { apply NoDup_cons in Hnd as [Hn _]. intros He. apply Hn. rewrite He. by left. }
  assert (Hin : forall k, In k (draws s0 ev) -> In k (draw evs0)).
  { intros k Hk. apply (in_later (ev :: evs) ev); [apply (re_later _ _ _ Hr)|by left|done]. }
  rewrite Hd in Hin.
  assert (Hfresh : forall k, In k (draws s0 ev) -> sv_access s !! k = None /\ sv_refresh s !! k = None /\ sv_codes s !! k = None).
  { intros k Hk. apply (re_fresh _ _ _ Hr). unfold draw. cbn [flat_map]. apply in_or_app. by left. }
  rewrite Hd in Hfresh.
  destruct (Hfresh (signature_string a)) as (Fa1 & Fa2 & Fa3); [by left|].
  destruct (Hfresh (signature_string f)) as (Ff1 & Ff2 & Ff3); [right; by left|].
  pose proof (generated_names _ _ _ _ Hg) as Hna. pose proof (generated_names _ _ _ _ Hg') as Hnf. rewrite Hsec in Hna, Hnf.
  assert (Hcfg : sv_config s = sv_config s0) by (by destruct Hreg).
  eexists _, _, (signature_string a), (signature_string f). split; [exact Hi|]. split; [|split].
  - split; [exact Hna|]. split; [exact Hnf|]. split; [done|]. split; [done|]. split; [done|]. split; [done|].
    split; [cbn [tr_expires_in]; rewrite Hcfg; reflexivity|]. split; [rewrite Hcfg; reflexivity|].
    split; [exact Hne|]. split; [apply Hin; by left|]. split; [apply Hin; right; by left|].
    split; [apply token_string_text|]. split; [apply token_string_text|]. cbn [tr_access_token tr_refresh_token].
    split; intros He; [rewrite He in Hna; by apply names_empty in Hna|rewrite He in Hnf; by apply names_empty in Hnf].
  - apply (reach_update X s _ evs (fun k => k = signature_string a \/ k = signature_string f)).
    + by apply reach_tail with ev.
    + done.
    + intros k [-> | ->]; apply drawn_touchable, Hin; [by left|right; by left].
    + intros k [-> | ->]; apply Hfr; [by left|right; by left].
    + intros k Hk. cbn [sv_access sv_refresh sv_codes]. rewrite !lookup_insert_ne by (intros <-; tauto). done.
  - done.
Qed.

(** The first token a request can make. *)
Lemma draw_first X s ev evs : reach X s (ev :: evs) ->
  exists a src, cfg_must_generate (sv_config s) (ev_rand ev) = Some (a, src) /\
    names sec (token_string a) (signature_string a) /\ In (signature_string a) (draw evs0) /\
    ~ In (signature_string a) (draw evs) /\
    sv_access s !! signature_string a = None /\ sv_refresh s !! signature_string a = None /\ sv_codes s !! signature_string a = None.
Proof.
  intros Hr. pose proof (reach_random X s ev evs Hr) as Hen. apply (issue_both_enough ev s None "" "" "") in Hen as [[s' t] Hi].
  pose proof (issue_both_spec ev s None "" "" "") as Hs. rewrite Hi in Hs.
  destruct Hs as (a & src & f & src' & Hg & Hg' & _).
  pose proof (re_registry _ _ _ Hr) as Hreg.
  pose proof (draws_both ev s a src f src' Hreg Hg Hg') as Hd.
  destruct (reach_nodup X s ev evs Hr) as [_ Hfr]. rewrite Hd in Hfr.
  pose proof (generated_names _ _ _ _ Hg) as Hna.
  assert (Hsec : cfg_secret (sv_config s) = sec) by (unfold sec, server_secret; by destruct Hreg as [-> _]). rewrite Hsec in Hna.
  exists a, src. split; [exact Hg|]. split; [exact Hna|]. split; [|split].
  - apply (in_later (ev :: evs) ev); [apply (re_later _ _ _ Hr)|by left|rewrite Hd; by left].
  - apply Hfr. by left.
  - apply (re_fresh _ _ _ Hr). unfold draw. cbn [flat_map]. apply in_or_app. left. rewrite Hd. by left.
Qed.

(** ** Live tokens *)
Definition live_access (s : server) (tok sg : string) : Prop :=
  names sec tok sg /\ exists c, sv_access s !! sg = Some c /\ sv_refresh s !! sg = None /\
    cd_client_id c = sp_client sp /\ (t1 <= cd_expires_at c)%Z /\ covers (cd_scope c) required /\ readable c.
Definition live_refresh (s : server) (tok sg : string) : Prop :=
  names sec tok sg /\ exists c, sv_refresh s !! sg = Some c /\ sv_access s !! sg = None /\
    cd_client_id c = sp_client sp /\ (t1 <= cd_expires_at c)%Z /\ items (cd_scope c) = l /\ readable c.

Lemma issued_live X s s' t ev evs sc user code a f : reach X s (ev :: evs) ->
  both_issued s s' t ev sc (sp_client sp) user code a f ->
  sv_refresh s !! a = None -> sv_access s !! f = None ->
  valid_utf8 user -> Forall valid_utf8 l -> items sc = l -> incl (items required) l ->
  live_access s' (tr_access_token t) a /\ live_refresh s' (tr_refresh_token t) f.
Proof.
  intros Hr (H1 & H2 & _ & _ & _ & _ & _ & -> & Hne & _) Ha Hf Hu Hl Hsc Hi.
  destruct (in_time_facts ev (reach_time X s ev evs Hr)) as (_ & T1 & T2 & _).
  destruct (in_time_seconds ev (reach_time X s ev evs Hr)) as [D1 D2].
  split; (split; [done|]); cbn [sv_access sv_refresh]; eexists.
  - rewrite lookup_insert, lookup_insert_ne by done. split; [reflexivity|]. split; [done|].
    unfold new_cred. cbn [cd_client_id cd_expires_at cd_scope]. split; [done|]. split; [done|].
    split; [unfold covers; by rewrite Hsc|]. split; [done|]. cbn [cd_scope cd_expires_at]. by rewrite Hsc.
  - rewrite lookup_insert, lookup_insert_ne by done. split; [reflexivity|]. split; [done|].
    unfold new_cred. cbn [cd_client_id cd_expires_at cd_scope]. split; [done|]. split; [done|].
    split; [done|]. split; [done|]. cbn [cd_scope cd_expires_at]. by rewrite Hsc.
Qed.
End Reach.
