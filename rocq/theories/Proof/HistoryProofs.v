(** Properties of histories. *)
From Verif.Model Require Import Server History.
From Verif.Spec Require Import TokenSpec ScopeSpec WireSpec RequestSpec ServerSpec HistorySpec.
From Verif.Proof Require Import StrFacts HsFacts TokenProofs UrlFacts Steps ServerFacts RequestProofs ServerProofs GrantProofs EffectProofs Effects HistoryFacts.

(** ** Entries in later states *)
Lemma run_secret s l s' : run s l s' -> server_secret s' = server_secret s.
Proof. intros H. unfold server_secret. by rewrite (run_config _ _ _ H). Qed.
Lemma run_access_entry s l s' sg : run s l s' -> (forall x, In x l -> ~ issues_access (server_secret s) x sg) ->
  sv_access s' !! sg = None \/ sv_access s' !! sg = sv_access s !! sg.
Proof.
  induction 1 as [|l s1 o H IH]; [by right|]. intros Hn.
  assert (Hs1 : server_secret s1 = server_secret s) by (by eapply run_secret).
  destruct (access_step s1 o sg) as [(ev & r & t & c & Hsv & Hnm & _)|[(_ & Hsame)|(_ & Hnone & _)]].
  - exfalso. apply (Hn (step_of s1 o)); [by left|]. rewrite <- Hs1. exists ev, r, (OToken t). split; [done|]. by exists t.
  - cbn in Hsame. rewrite Hsame. apply IH. intros x Hx. apply Hn. by right.
  - by left.
Qed.
Lemma run_refresh_entry s l s' sg : run s l s' -> (forall x, In x l -> ~ issues_refresh (server_secret s) x sg) ->
  sv_refresh s' !! sg = None \/ sv_refresh s' !! sg = sv_refresh s !! sg.
Proof.
  induction 1 as [|l s1 o H IH]; [by right|]. intros Hn.
  assert (Hs1 : server_secret s1 = server_secret s) by (by eapply run_secret).
  destruct (refresh_step s1 o sg) as [(ev & r & t & c & Hsv & Hnm & _)|[(_ & Hsame)|(_ & Hnone & _)]].
  - exfalso. apply (Hn (step_of s1 o)); [by left|]. rewrite <- Hs1. exists ev, r, (OToken t). split; [done|]. by exists t.
  - cbn in Hsame. rewrite Hsame. apply IH. intros x Hx. apply Hn. by right.
  - by left.
Qed.
Lemma run_code_entry s l s' sg d : run s l s' -> (forall x, In x l -> ~ issues_code (server_secret s) x sg) ->
  sv_codes s !! sg = Some d -> sv_codes s' !! sg = Some d \/ sv_codes s' !! sg = Some (as_used d).
Proof.
  induction 1 as [|l s1 o H IH]; [by left|]. intros Hn Hd.
  assert (Hs1 : server_secret s1 = server_secret s) by (by eapply run_secret).
  destruct (code_step s1 o sg) as [(ev & r & t & c & Hsv & Hnm & _)|[(_ & Hsame & _)|(_ & _ & d1 & Hd1 & Hu & Hd2)]].
  - exfalso. apply (Hn (step_of s1 o)); [by left|]. rewrite <- Hs1. exists ev, r, (OCode t). split; [done|]. by exists t.
  - cbn in Hsame. rewrite Hsame. apply IH; [|done]. intros x Hx. apply Hn. by right.
  - cbn in Hd2. rewrite Hd2. destruct IH as [E|E]; [by intros x Hx; apply Hn; right|done|..]; rewrite Hd1 in E; injection E as ->; [by right|done].
Qed.
Lemma refuses now s r required w : unsent w -> ~ (exists w', authorize now s r required w = Some (true, w')) ->
  exists w', authorize now s r required w = Some (false, w').
Proof. intros Hw Hn. destruct (c54_authorize now s r required w Hw) as (b & w' & H & _). destruct b; [exfalso|]; eauto. Qed.
Lemma names_bearer_access now s r str sg required w :
  bearer r str -> names (server_secret s) str sg ->
  (exists w', authorize now s r required w = Some (true, w')) <->
  (exists c, sv_access s !! sg = Some c /\ (now <= cd_expires_at c)%Z /\ covers (cd_scope c) required).
Proof.
  intros Hb Hn. rewrite c27_granted. split.
  - intros (str' & c & Hb' & (sg' & Hn' & Hc) & H1 & H2). exists c. rewrite (bearer_fun _ _ _ Hb' Hb) in Hn'.
    rewrite (names_fun _ _ _ _ Hn Hn'). done.
  - intros (c & Hc & H1 & H2). exists str, c. split; [done|]. split; [by exists sg|done].
Qed.

(** ** C29 *)
Lemma c29_access : forall now s r str c required w,
  bearer r str -> access_token s str c -> covers (cd_scope c) required ->
  (exists w', authorize now s r required w = Some (true, w')) <-> (now <= cd_expires_at c)%Z.
Proof.
  intros now s r str c required w Hb (sg & Hn & Hc) Hcov. rewrite (names_bearer_access _ _ _ _ _ _ _ Hb Hn). split.
  - intros (c' & Hc' & H1 & _). rewrite Hc in Hc'. by injection Hc' as <-.
  - intros H1. by exists c.
Qed.
Lemma c29_refresh : forall ev s r id d, complete_token_request r -> from_client s r id ->
  body_param r "grant_type" = "refresh_token" -> refresh_token s (body_param r "refresh_token") d ->
  cd_client_id d = id -> covers (cd_scope d) (parse_scope (body_param r "scope")) -> enough_random ev s 2 ->
  (exists s' t, handle ev s r = Done s' (OToken t)) <-> (ev_now_check ev <= cd_expires_at d)%Z.
Proof.
  intros ev s r id d H1 H2 H3 H4 H5 H6 H7. rewrite c59_refresh by done. split.
  - intros ((d' & (sg' & Hn' & Hd') & Hx & _) & _). destruct H4 as (sg & Hn & Hd). rewrite (names_fun _ _ _ _ Hn' Hn) in Hd'. congruence.
  - intros Hx. split; [|done]. by exists d.
Qed.
Lemma c29_code : forall ev s r id d, complete_token_request r -> from_client s r id ->
  body_param r "grant_type" = "authorization_code" -> auth_code s (body_param r "code") d ->
  cd_client_id d = id -> cd_used d = false -> query_unescape (body_param r "redirect_uri") = Some (cd_redirect_uri d) ->
  enough_random ev s 2 ->
  (exists s' t, handle ev s r = Done s' (OToken t)) <-> (ev_now_check ev <= cd_expires_at d)%Z.
Proof.
  intros ev s r id d H1 H2 H3 H4 H5 H6 H7 H8. rewrite c59_code by done. split.
  - intros ((d' & (sg' & Hn' & Hd') & _ & Hx & _) & _). destruct H4 as (sg & Hn & Hd). rewrite (names_fun _ _ _ _ Hn' Hn) in Hd'. congruence.
  - intros Hx. split; [|done]. by exists d.
Qed.
Lemma presented_refresh ev s r s' t sg : handle ev s r = Done s' (OToken t) -> presents_refresh (server_secret s) r sg ->
  exists d, sv_refresh s !! sg = Some d /\ (ev_now_check ev <= cd_expires_at d)%Z /\ from_client s r (cd_client_id d) /\ covers (cd_scope d) (tr_scope t).
Proof.
  intros H (He & Hg & Hn). destruct (c32_refresh _ _ _ _ _ H He Hg) as (d & (sg' & Hn' & Hd) & Hf & Hx & Hc & _).
  exists d. by rewrite (names_fun _ _ _ _ Hn Hn').
Qed.
Lemma presented_code ev s r s' t sg : handle ev s r = Done s' (OToken t) -> presents_code (server_secret s) r sg ->
  exists d, sv_codes s !! sg = Some d /\ cd_used d = false /\ (ev_now_check ev <= cd_expires_at d)%Z /\ from_client s r (cd_client_id d) /\
    query_unescape (body_param r "redirect_uri") = Some (cd_redirect_uri d) /\ tr_scope t = cd_scope d.
Proof.
  intros H (He & Hg & Hn). destruct (c35_redeem _ _ _ _ _ H He Hg) as (d & sg1 & (sg' & Hn' & Hd) & _ & Hf & Hu & Hx & Hr & Hs & _).
  exists d. by rewrite (names_fun _ _ _ _ Hn Hn').
Qed.
Lemma c29_access_forever : forall now s r required str sg l s' now' r' str' required' w,
  authorize_decision now s r required = Denied (InvalidToken "expired token") ->
  bearer r str -> names (server_secret s) str sg ->
  run s l s' -> (forall x, In x l -> ~ issues_access (server_secret s) x sg) -> (now <= now')%Z ->
  bearer r' str' -> names (server_secret s) str' sg ->
  ~ exists w', authorize now' s' r' required' w = Some (true, w').
Proof.
  intros now s r required str sg l s' now' r' str' required' w Hd Hb Hn Hrun Hni Hle Hb' Hn'.
  rewrite <- (run_secret _ _ _ Hrun) in Hn'. rewrite (names_bearer_access _ _ _ _ _ _ _ Hb' Hn'). intros (c & Hc & Hx & _).
  destruct (run_access_entry _ _ _ _ Hrun Hni) as [E|E]; rewrite Hc in E; [done|]. symmetry in E.
  unfold authorize_decision in Hd. rewrite (proj1 (bearer_spec r str) Hb) in Hd. apply names_spec in Hn as (k & Hk & ->).
  unfold server_secret in Hk. rewrite Hk, E in Hd. destruct (Z.ltb_spec (cd_expires_at c) now); [lia|].
  destruct (negb _); [|done]. injection Hd as Hd. discriminate Hd.
Qed.
Lemma c29_refresh_forever : forall ev s r s0 e sg l s' ev' r' s1 t,
  handle ev s r = Done s0 (OError e) -> e_name e = "invalid_grant" -> e_description e = "expired refresh token" ->
  presents_refresh (server_secret s) r sg ->
  run s0 l s' -> (forall x, In x l -> ~ issues_refresh (server_secret s) x sg) -> (ev_now_check ev <= ev_now_check ev')%Z ->
  presents_refresh (server_secret s) r' sg -> handle ev' s' r' <> Done s1 (OToken t).
Proof.
  intros ev s r s0 e sg l s' ev' r' s1 t H Hen Hed Hp Hrun Hni Hle Hp' H'.
  assert (Hs0 : s0 = s /\ forall d, sv_refresh s !! sg = Some d -> (cd_expires_at d < ev_now_check ev)%Z).
  { destruct Hp as (He & Hg & Hn). rewrite handle_token in H by done. unfold token_endpoint in H.
    destruct (parse_token_request r) as [q|e0] eqn:Hq.
    2:{ injection H as <- <-. exfalso. unfold parse_token_request in Hq. split_match Hq; by injection Hq as <-. }
    pose proof (parse_token_inl r q Hq) as (_ & _ & Hgt & _ & _ & Hrt & _). rewrite Hgt, Hg in H.
    change (known_grant_type "refresh_token") with true in H. cbn [negb] in H.
    destruct (sv_clients s !! tq_client_id q) as [c|]; [|by injection H as <- <-].
    destruct (client_ok c (tq_client_secret q)); cbn [negb] in H; [|by injection H as <- <-].
    change (seqb "refresh_token" PasswordGrantType) with false in H.
    change (seqb "refresh_token" ClientCredentialsGrantType) with false in H.
    change (seqb "refresh_token" AuthorizationCodeGrantType) with false in H. cbv iota in H.
    unfold handle_refresh in H. rewrite Hrt in H. apply names_spec in Hn as (k & Hk & ->). unfold server_secret in Hk. rewrite Hk in H.
    cbv zeta in H. destruct (sv_refresh s !! signature_string k) as [d|]; [|by injection H as <- <-].
    destruct (Z.ltb_spec (cd_expires_at d) (ev_now_check ev)) as [Hlt|]; [injection H as <- _; split; [done|]; by intros ? [= <-]|].
    exfalso. split_match H; first [discriminate H|injection H as _ <-; first [discriminate Hed|discriminate Hen]]. }
  destruct Hs0 as (-> & Hs0). rewrite <- (run_secret _ _ _ Hrun) in Hp'.
  destruct (presented_refresh _ _ _ _ _ _ H' Hp') as (d & Hd & Hx & _).
  destruct (run_refresh_entry _ _ _ _ Hrun Hni) as [E|E]; rewrite Hd in E; [done|]. symmetry in E. apply Hs0 in E. lia.
Qed.
Lemma c29_code_forever : forall ev s r s0 e sg l s' ev' r' s1 t,
  handle ev s r = Done s0 (OError e) -> e_name e = "invalid_grant" -> e_description e = "expired authorization code" ->
  presents_code (server_secret s) r sg ->
  run s0 l s' -> (forall x, In x l -> ~ issues_code (server_secret s) x sg) -> (ev_now_check ev <= ev_now_check ev')%Z ->
  presents_code (server_secret s) r' sg -> handle ev' s' r' <> Done s1 (OToken t).
Proof.
  intros ev s r s0 e sg l s' ev' r' s1 t H Hen Hed Hp Hrun Hni Hle Hp' H'.
  assert (Hs0 : s0 = s /\ exists d, sv_codes s !! sg = Some d /\ (cd_expires_at d < ev_now_check ev)%Z).
  { destruct Hp as (He & Hg & Hn). rewrite handle_token in H by done. unfold token_endpoint in H.
    destruct (parse_token_request r) as [q|e0] eqn:Hq.
    2:{ injection H as <- <-. exfalso. unfold parse_token_request in Hq. split_match Hq; by injection Hq as <-. }
    pose proof (parse_token_inl r q Hq) as (_ & _ & Hgt & _ & _ & _ & Hco & _). rewrite Hgt, Hg in H.
    change (known_grant_type "authorization_code") with true in H. cbn [negb] in H.
    destruct (sv_clients s !! tq_client_id q) as [c|]; [|by injection H as <- <-].
    destruct (client_ok c (tq_client_secret q)); cbn [negb] in H; [|by injection H as <- <-].
    change (seqb "authorization_code" PasswordGrantType) with false in H.
    change (seqb "authorization_code" ClientCredentialsGrantType) with false in H.
    change (seqb "authorization_code" AuthorizationCodeGrantType) with true in H. cbv iota in H.
    unfold handle_code in H. rewrite Hco in H. apply names_spec in Hn as (k & Hk & ->). unfold server_secret in Hk. rewrite Hk in H.
    cbv zeta in H. destruct (sv_codes s !! signature_string k) as [d|]; [|by injection H as <- <-].
    destruct (cd_used d); [by injection H as <- <-|].
    destruct (Z.ltb_spec (cd_expires_at d) (ev_now_check ev)) as [Hlt|]; [injection H as <- _; split; [done|]; by exists d|].
    exfalso. split_match H; first [discriminate H|injection H as _ <-; first [discriminate Hed|discriminate Hen]]. }
  destruct Hs0 as (-> & d0 & Hd0 & Hlt). rewrite <- (run_secret _ _ _ Hrun) in Hp'.
  destruct (presented_code _ _ _ _ _ _ H' Hp') as (d & Hd & _ & Hx & _).
  destruct (run_code_entry _ _ _ _ _ Hrun Hni Hd0) as [E|E]; rewrite Hd in E; injection E as ->; cbn in Hx; lia.
Qed.

(** ** C31 *)
Definition within (cfg : server_config) (m : gmap string credential) : Prop :=
  forall k c, m !! k = Some c -> covers (cfg_allowed_scope cfg) (cd_scope c).
Lemma within_insert cfg m k c : within cfg m -> covers (cfg_allowed_scope cfg) (cd_scope c) -> within cfg (<[k:=c]> m).
Proof. intros H Hc k' c' Hk. apply lookup_insert_Some in Hk as [[_ <-]|[_ Hk]]; [done|eauto]. Qed.
Lemma within_delete cfg m k : within cfg m -> within cfg (delete k m).
Proof. intros H k' c' Hk. apply lookup_delete_Some in Hk as [_ Hk]. eauto. Qed.
Lemma within_revoke cfg m k : within cfg m -> within cfg (revoke_code k m).
Proof. intros H k' c' Hk. apply revoke_code_without in Hk as [Hk _]. eauto. Qed.
Definition all_within (s : server) : Prop :=
  within (sv_config s) (sv_access s) /\ within (sv_config s) (sv_refresh s) /\ within (sv_config s) (sv_codes s).
Lemma covers_trans a b c : covers a b -> covers b c -> covers a c.
Proof. unfold covers. intros H1 H2. by eapply incl_tran. Qed.
Ltac cov := repeat match goal with H : tr_scope _ = _ |- _ => rewrite H end; done.
Lemma within_step ev s r : all_within s -> all_within (res_server (handle ev s r)) /\
  forall s' t, handle ev s r = Done s' (OToken t) -> covers (cfg_allowed_scope (sv_config s)) (tr_scope t).
Proof.
  intros (Ha & Hr & Hc). unfold all_within. rewrite handle_config.
  pose proof (handle_handled ev s r) as H. destruct H; cbn [res_server]; try (split; [done|by intros ? ? [=]]);
    repeat match goal with
    | H : issued_access _ _ _ _ _ _ _ _ |- _ => apply issued_access_facts in H as (? & _ & _ & ? & _ & _ & ->)
    | H : issued_both _ _ _ _ _ _ _ _ |- _ => apply issued_both_facts in H as (? & ? & _ & _ & ? & _ & _ & ->)
    | H : allowed _ _ |- _ => apply covers_spec in H
    end; cbn.
  - split; [|intros ? ? [= <- <-]; cbn; cov]. split; [apply within_insert; [done|cbn; cov]|done].
  - split; [|done]. split; [done|]. split; [done|]. apply within_insert; [done|cbn; cov].
  - split; [|intros ? ? [= <- <-]; cbn; cov]. split; [apply within_insert; [done|cbn; cov]|]. split; [apply within_insert; [done|cbn; cov]|done].
  - split; [|intros ? ? [= <- <-]; cbn; cov]. split; [apply within_insert; [done|cbn; cov]|]. split; [apply within_insert; [done|cbn; cov]|done].
  - assert (Hd : covers (cfg_allowed_scope (sv_config s)) (cd_scope d)) by eauto.
    split; [|intros ? ? [= <- <-]; cbn; cov]. split; [apply within_insert; [done|cbn; cov]|]. split; [apply within_insert; [done|cbn; cov]|].
    apply within_insert; [done|]. done.
  - split; [|done]. split; [by apply within_revoke|]. split; [by apply within_revoke|done].
  - assert (Hd : covers (cfg_allowed_scope (sv_config s)) sc).
    { apply covers_trans with (cd_scope d); [eauto|]. by apply covers_spec. }
    split; [|intros ? ? [= <- <-]; cbn; cov]. split; [apply within_insert; [done|cbn; cov]|]. split; [|done].
    apply within_delete, within_insert; [done|cbn; cov].
  - split; [|done]. split; [by apply within_delete|]. split; [by apply within_delete|done].
  - split; [|done]. split; [by apply within_delete|done].
Qed.
Lemma all_within_history cfg l s : history cfg l s -> all_within s.
Proof.
  induction 1 as [|l s o H IH]; [split; [|split]; intros k c Hk; cbn in Hk; by rewrite lookup_empty in Hk|].
  destruct (serve_dec o) as [(ev & r & ->)|Hn]; [rewrite step_serve; by apply within_step|].
  apply (other_step s) in Hn as (H1 & H2 & H3 & H4 & _). unfold all_within. by rewrite H1, H2, H3, H4.
Qed.
Lemma c31_scopes : forall cfg l s k c, history cfg l s ->
  sv_access s !! k = Some c \/ sv_refresh s !! k = Some c \/ sv_codes s !! k = Some c ->
  covers (cfg_allowed_scope cfg) (cd_scope c).
Proof.
  intros cfg l s k c H Hk. pose proof (all_within_history _ _ _ H) as (H1 & H2 & H3). rewrite (history_config _ _ _ H) in *.
  destruct Hk as [Hk|[Hk|Hk]]; eauto.
Qed.
Lemma c31_answers : forall cfg l s x ev r t, history cfg l s -> In x l -> served x ev r (OToken t) ->
  covers (cfg_allowed_scope cfg) (tr_scope t) /\
  exists a, access_token (st_after x) (tr_access_token t) a /\ cd_scope a = tr_scope t.
Proof.
  intros cfg l s x ev r t H Hx Hs. apply in_split in Hx as (l2 & l1 & ->). 
  destruct (run_in _ _ _ x H) as (o & Hx); [apply in_or_app; right; by left|].
  apply run_split in H as [H _]. change (history cfg l1 (st_before x)) in H. set (s0 := st_before x) in *. rewrite Hx in Hs |- *.
  apply served_step in Hs as (-> & s' & Hh). split.
  - rewrite <- (history_config _ _ _ H). eapply (within_step ev s0 r); [by eapply all_within_history|done].
  - cbn [st_after step_of]. rewrite step_serve, Hh. destruct (c58_tokens _ _ _ _ _ Hh) as (a & Ha & _ & Hsc & _). by exists a.
Qed.

(** ** C33, C34 *)
Lemma c33_counting : forall cfg l s sg n m, history cfg l s ->
  counts (fun x => redeems_refresh (cfg_secret cfg) x sg) l n ->
  counts (fun x => issues_refresh (cfg_secret cfg) x sg) l m -> n <= m.
Proof.
  intros cfg l s sg n m H Hn Hm.
  assert (Hx : n <= m /\ (is_Some (sv_refresh s !! sg) -> n < m)); [|tauto].
  revert n m Hn Hm. induction H as [|l s o H IH]; intros n m Hn Hm.
  - inversion Hn; subst. inversion Hm; subst. split; [done|]. cbn. rewrite lookup_empty. by intros [? ?].
  - pose proof (history_secret _ _ _ H) as Hsec. pose proof (refresh_step s o sg) as Hst. cbv zeta in Hst. rewrite Hsec in Hst. cbn [step_of st_after] in Hst.
    assert (Hd : forall n', counts (fun x => redeems_refresh (cfg_secret cfg) x sg) l n' -> redeems_refresh (cfg_secret cfg) (step_of s o) sg ->
      is_Some (sv_refresh s !! sg)).
    { intros _ _ (ev & r & t & Hs & Hp). apply served_step in Hs as (-> & s' & Hh). rewrite <- Hsec in Hp.
      destruct (presented_refresh _ _ _ _ _ _ Hh Hp) as (d & Hd & _). by exists d. }
    assert (Hgone : redeems_refresh (cfg_secret cfg) (step_of s o) sg -> sv_refresh (fst (do_op s o)) !! sg = None).
    { rewrite <- Hsec. apply redeems_removes. }
    inversion Hn as [|? ? n' Hyn Hn'|? ? n' Hyn Hn']; subst; inversion Hm as [|? ? m' Hym Hm'|? ? m' Hym Hm']; subst; destruct (IH _ _ Hn' Hm') as [H1 H2];
      try (specialize (Hd _ Hn' Hyn); specialize (H2 Hd); rewrite (Hgone Hyn)).
    + split; [lia|]. by intros [? ?].
    + split; [lia|]. by intros [? ?].
    + split; [lia|]. intros _. lia.
    + split; [done|]. intros Hsome. apply H2.
      destruct Hst as [(ev & r & t & c & Hsv & Hnm & _)|[(_ & Hsame)|(_ & Hnone & _)]].
      * exfalso. apply Hym. exists ev, r, (OToken t). split; [done|]. by exists t.
      * by rewrite <- Hsame.
      * rewrite Hnone in Hsome. by destruct Hsome.
Qed.
Lemma c34_counting : forall cfg l s sg n m, history cfg l s ->
  counts (fun x => redeems_code (cfg_secret cfg) x sg) l n ->
  counts (fun x => issues_code (cfg_secret cfg) x sg) l m -> n <= m.
Proof.
  intros cfg l s sg n m H Hn Hm.
  assert (Hx : n <= m /\ ((exists d, sv_codes s !! sg = Some d /\ cd_used d = false) -> n < m)); [|tauto].
  revert n m Hn Hm. induction H as [|l s o H IH]; intros n m Hn Hm.
  - inversion Hn; subst. inversion Hm; subst. split; [done|]. cbn. rewrite lookup_empty. by intros (? & ? & ?).
  - pose proof (history_secret _ _ _ H) as Hsec. pose proof (code_step s o sg) as Hst. cbv zeta in Hst. rewrite Hsec in Hst. cbn [step_of st_after] in Hst.
    assert (Hd : redeems_code (cfg_secret cfg) (step_of s o) sg -> exists d, sv_codes s !! sg = Some d /\ cd_used d = false).
    { intros (ev & r & t & Hs & Hp). apply served_step in Hs as (-> & s' & Hh). rewrite <- Hsec in Hp.
      destruct (presented_code _ _ _ _ _ _ Hh Hp) as (d & Hd & Hu & _). by exists d. }
    inversion Hn as [|? ? n' Hyn Hn'|? ? n' Hyn Hn']; subst; inversion Hm as [|? ? m' Hym Hm'|? ? m' Hym Hm']; subst; destruct (IH _ _ Hn' Hm') as [H1 H2].
    + exfalso. destruct Hst as [(ev & r & c & d & Hst)|[(Hni & _)|(Hni & _)]]; [|done..].
      destruct Hst as (_ & _ & _ & _ & _ & _ & _ & _ & _ & _ & _ & _ & _ & Hnr). done.
    + specialize (H2 (Hd Hyn)). split; [lia|]. intros (d & Hd1 & Hu1).
      destruct Hst as [(ev & r & c & d' & Hsv & Hnm & _)|[(_ & Hsame & Hnr)|(_ & _ & d' & _ & _ & Hd')]].
      * exfalso. apply Hym. exists ev, r, (OCode c). split; [done|]. by exists c.
      * exfalso. destruct (Hd Hyn) as (d' & Hd' & Hu'). by eapply Hnr.
      * rewrite Hd1 in Hd'. by injection Hd' as ->.
    + split; [lia|]. intros _. lia.
    + split; [done|]. intros (d & Hd1 & Hu1). apply H2.
      destruct Hst as [(ev & r & c & d' & Hsv & Hnm & _)|[(_ & Hsame & Hnr)|(_ & Hyes & _)]].
      * exfalso. apply Hym. exists ev, r, (OCode c). split; [done|]. by exists c.
      * exists d. by rewrite <- Hsame.
      * done.
Qed.

(** ** C35 *)
Lemma c35_provenance : forall cfg l s ev r s' t sg, history cfg l s ->
  handle ev s r = Done s' (OToken t) -> presents_code (cfg_secret cfg) r sg ->
  exists x later ev0 r0, last_step (fun y => issues_code (cfg_secret cfg) y sg) l x later /\
    grants_code (cfg_secret cfg) x sg ev0 r0 /\
    from_client s r (form_param r0 "client_id") /\
    query_unescape (body_param r "redirect_uri") = query_unescape (form_param r0 "redirect_uri") /\
    tr_scope t = parse_scope (form_param r0 "scope") /\
    (ev_now_check ev <= ev_now_code ev0 + cfg_code_lifespan cfg)%Z /\
    (forall y, In y later -> ~ redeems_code (cfg_secret cfg) y sg) /\
    (exists a, access_token s' (tr_access_token t) a /\ cd_client_id a = form_param r0 "client_id" /\
       cd_username a = body_param r0 "username" /\ cd_scope a = parse_scope (form_param r0 "scope")) /\
    (exists f, refresh_token s' (tr_refresh_token t) f /\ cd_client_id f = form_param r0 "client_id" /\
       cd_username f = body_param r0 "username" /\ cd_scope f = parse_scope (form_param r0 "scope")).
Proof.
  intros cfg l s ev r s' t sg H Hh Hp. pose proof (history_secret _ _ _ H) as Hsec. rewrite <- Hsec in Hp.
  pose proof (code_life _ _ _ sg H) as HL. unfold code_story in HL. destruct Hp as (He & Hg & Hn).
  destruct (c35_redeem _ _ _ _ _ Hh He Hg) as (d & sg1 & (sg2 & Hn2 & Hd) & Hn1 & Hf & Hu & Hx & Hr & Hs & (a & Ha & Ha1 & Ha2 & Ha3 & _) & (f & Hf0 & Hf1 & Hf2 & Hf3 & _) & _).
  rewrite (names_fun _ _ _ _ Hn2 Hn) in Hd. rewrite Hd in HL.
  destruct HL as (x & later & ev0 & r0 & c & Hl & Hsv & Hnc & H1 & H2 & H3 & H4 & H5 & H6 & H7 & H8 & H9 & Hus).
  exists x, later, ev0, r0. split; [done|]. split; [by exists c|]. split; [by rewrite <- H3|]. split; [congruence|]. split; [congruence|].
  split; [lia|]. split; [by apply Hus|]. split; [exists a|exists f]; split_and!; try done; congruence.
Qed.

(** ** C40 *)
Definition approved (l : list step) (c : credential) : Prop :=
  cd_username c = "" \/ exists x sc, In x l /\ approves x (cd_client_id c) (cd_username c) sc /\ covers sc (cd_scope c).
Definition map_approved (l : list step) (m : gmap string credential) : Prop := forall k c, m !! k = Some c -> approved l c.
Lemma approved_more l x c : approved l c -> approved (x :: l) c.
Proof. intros [H|(y & sc & Hy & H1)]; [by left|]. right. exists y, sc. split; [by right|done]. Qed.
Lemma map_approved_more l x m : map_approved l m -> map_approved (x :: l) m.
Proof. intros H k c Hk. apply approved_more. eauto. Qed.
Lemma map_approved_insert l m k c : map_approved l m -> approved l c -> map_approved l (<[k:=c]> m).
Proof. intros H Hc k' c' Hk. apply lookup_insert_Some in Hk as [[_ <-]|[_ Hk]]; [done|eauto]. Qed.
Lemma map_approved_delete l m k : map_approved l m -> map_approved l (delete k m).
Proof. intros H k' c' Hk. apply lookup_delete_Some in Hk as [_ Hk]. eauto. Qed.
Lemma map_approved_revoke l m k : map_approved l m -> map_approved l (revoke_code k m).
Proof. intros H k' c' Hk. apply revoke_code_without in Hk as [Hk _]. eauto. Qed.
Definition all_approved (l : list step) (s : server) : Prop :=
  map_approved l (sv_access s) /\ map_approved l (sv_refresh s) /\ map_approved l (sv_codes s).
Lemma approved_step l ev s r : all_approved l s -> all_approved (step_of s (Serve ev r) :: l) (res_server (handle ev s r)).
Proof.
  intros (Ha & Hr & Hc). set (x := step_of s (Serve ev r)).
  apply (map_approved_more l x) in Ha, Hr, Hc.
  assert (Hsv : forall s' o, handle ev s r = Done s' o -> served x ev r o) by (intros s' o Hh; apply served_step; eauto).
  unfold all_approved. pose proof (handle_handled ev s r) as H. remember (handle ev s r) as res eqn:Hres. symmetry in Hres.
  destruct H; cbn [res_server]; try done;
    repeat match goal with
    | H : issued_access _ _ _ _ _ _ _ _ |- _ => apply issued_access_facts in H as (? & _ & _ & ? & _ & _ & ->)
    | H : issued_both _ _ _ _ _ _ _ _ |- _ => apply issued_both_facts in H as (? & ? & _ & _ & ? & _ & _ & ->)
    | H : at_authorize _ _ _ _ |- _ => pose proof (acts_authorize _ _ _ _ H); pose proof H as (Hend & _);
        apply at_authorize_uri in H as (_ & _ & _ & _ & _ & _ & Hsc)
    | H : at_token _ _ _ _ |- _ => pose proof (acts_token_for _ _ _ _ H);
        apply at_token_params in H as (Hend & Hcode & Hrt & Hgt & Hun & Hpw & Hsc & _)
    end; cbn.
  - split; [|done]. apply map_approved_insert; [done|]. right. exists x, (aq_scope req). split; [by left|]. split; [|cbn; apply incl_refl].
    eexists ev, r, _. split; [by eapply Hsv|]. cbn. rewrite r_user_param. split; [done|]. split; [done|].
    split; [apply password_spec; by rewrite <- r_user_param, <- r_password_param|]. right. split; [by apply endpoint_authorize|]. done.
  - split; [done|]. split; [done|]. apply map_approved_insert; [done|]. right. exists x, (aq_scope req). split; [by left|]. split; [|cbn; apply incl_refl].
    eexists ev, r, _. split; [by eapply Hsv|]. cbn. rewrite r_user_param. split; [done|]. split; [done|].
    split; [apply password_spec; by rewrite <- r_user_param, <- r_password_param|]. right. split; [by apply endpoint_authorize|]. done.
  - assert (Hap : approves x (tq_client_id req) (tq_username req) (tq_scope req)).
    { eexists ev, r, _. split; [by eapply Hsv|]. split; [done|]. split; [done|].
      split; [apply password_spec; by rewrite <- Hpw|]. left. split; [done|]. split; [congruence|done]. }
    split; [|split; [|done]]; (apply map_approved_insert; [done|]); right; exists x, (tq_scope req); (split; [by left|]); (split; [done|cbn; apply incl_refl]).
  - split; [|split; [|done]]; (apply map_approved_insert; [done|]); by left.
  - assert (Hd : forall e sc, sc = cd_scope d -> approved (x :: l) (new_cred (tq_client_id req) (cd_username d) e sc (signature_string k))).
    { intros e sc ->. destruct (Hc (signature_string k) d) as [Hx|(y & sc & Hy & Hx & Hcov)]; [done|by left|]. right. exists y, sc. cbn.
      split; [done|]. split; [congruence|done]. }
    split; [|split]; (apply map_approved_insert; [done|]); [by apply Hd..|]. by apply (Hc (signature_string k) d).
  - split; [by apply map_approved_revoke|]. split; [by apply map_approved_revoke|done].
  - assert (Hd : forall e, approved (x :: l) (new_cred (tq_client_id req) (cd_username d) e sc "")).
    { intros e. destruct (Hr (signature_string k) d) as [Hx|(y & sc' & Hy & Hx & Hcov)]; [done|by left|]. right. exists y, sc'. cbn.
      split; [done|]. split; [congruence|]. apply covers_trans with (cd_scope d); [done|by apply covers_spec]. }
    split; [apply map_approved_insert; [done|by apply Hd]|]. split; [|done]. apply map_approved_delete, map_approved_insert; [done|by apply Hd].
  - split; [by apply map_approved_delete|]. split; [by apply map_approved_delete|done].
  - split; [by apply map_approved_delete|done].
Qed.
Lemma c40_passwords : forall cfg l s k c, history cfg l s ->
  sv_access s !! k = Some c \/ sv_refresh s !! k = Some c \/ sv_codes s !! k = Some c -> cd_username c <> "" ->
  exists x sc, In x l /\ approves x (cd_client_id c) (cd_username c) sc /\ covers sc (cd_scope c).
Proof.
  intros cfg l s k c H Hk Hu.
  assert (all_approved l s) as (H1 & H2 & H3).
  { clear Hk. induction H as [|l s o H IH]; [split; [|split]; intros k' c' Hk; cbn in Hk; by rewrite lookup_empty in Hk|].
    destruct (serve_dec o) as [(ev & r & ->)|Hn]; [rewrite step_serve; by apply approved_step|].
    apply (other_step s) in Hn as (_ & Hx2 & Hx3 & Hx4 & _). unfold all_approved. rewrite Hx2, Hx3, Hx4.
    destruct IH as (IH1 & IH2 & IH3). split; [|split]; by apply map_approved_more. }
  assert (approved l c) as [Hx|Hx] by (destruct Hk as [Hk|[Hk|Hk]]; eauto); done.
Qed.

(** ** C45 *)
Lemma c45_revoked : forall ev s r s' sg l s'',
  handle ev s r = Done s' ORevoked -> names (server_secret s) (body_param r "token") sg ->
  run s' l s'' -> (forall x, In x l -> ~ issues_access (server_secret s) x sg /\ ~ issues_refresh (server_secret s) x sg) ->
  (forall now r' str required w, unsent w -> bearer r' str -> names (server_secret s) str sg ->
     exists w', authorize now s'' r' required w = Some (false, w')) /\
  (forall ev' r' s3 x, names (server_secret s) (body_param r' "token") sg -> handle ev' s'' r' = Done s3 (OIntro x) -> reports_nothing x) /\
  (forall ev' r' s3 t, presents_refresh (server_secret s) r' sg -> handle ev' s'' r' <> Done s3 (OToken t)).
Proof.
  intros ev s r s' sg l s'' H Hn Hrun Hni.
  assert (Hsec' : server_secret s' = server_secret s).
  { unfold server_secret. pose proof (handle_config ev s r) as Hc. rewrite H in Hc. cbn in Hc. by rewrite Hc. }
  assert (Hend : endpoint r "revoke").
  { apply handled_of in H. inversion H; subst. match goal with H : at_lookup _ _ _ _ _ |- _ => destruct H as (Hx & _) end. by apply endpoint_revoke. }
  destruct (revoke_removes ev s r sg) as [Ha Hr]; [by exists s'|]. rewrite H in Ha, Hr. cbn in Ha, Hr.
  assert (Ha' : sv_access s'' !! sg = None).
  { destruct (run_access_entry _ _ _ sg Hrun) as [E|E]; [|done|congruence]. intros x Hx. rewrite Hsec'. by apply Hni. }
  assert (Hr' : sv_refresh s'' !! sg = None).
  { destruct (run_refresh_entry _ _ _ sg Hrun) as [E|E]; [|done|congruence]. intros x Hx. rewrite Hsec'. by apply Hni. }
  rewrite <- Hsec', <- (run_secret _ _ _ Hrun). split; [|split].
  - intros now r' str required w Hw Hb Hnm. apply refuses; [done|]. intros Hy.
    rewrite (names_bearer_access _ _ _ _ _ _ _ Hb Hnm) in Hy. destruct Hy as (c & Hy & _). congruence.
  - intros ev' r' s3 x Hnm Hh. destruct (c47_discloses _ _ _ _ _ Hh) as [Hx|(c & kind & _ & _ & [(_ & sg' & Hn' & Hx)|(_ & sg' & Hn' & Hx)])]; [done|..];
      exfalso; rewrite (names_fun _ _ _ _ Hn' Hnm) in Hx; congruence.
  - intros ev' r' s3 t Hp Hh. destruct (presented_refresh _ _ _ _ _ _ Hh Hp) as (d & Hd & _). congruence.
Qed.

(** ** C50 *)
Lemma c50_access : forall cfg l s now r str sg required w, history cfg l s ->
  bearer r str -> names (cfg_secret cfg) str sg ->
  (exists w', authorize now s r required w = Some (true, w')) <->
  (exists x later ev r0 t, last_step (fun y => issues_access (cfg_secret cfg) y sg) l x later /\
     served x ev r0 (OToken t) /\ covers (tr_scope t) required /\
     (now <= ev_now_access ev + cfg_access_lifespan cfg)%Z /\
     forall y, In y later -> ~ ends_access (cfg_secret cfg) x y sg).
Proof.
  intros cfg l s now r str sg required w H Hb Hn. rewrite <- (history_secret _ _ _ H) in Hn.
  rewrite (names_bearer_access _ _ _ _ _ _ _ Hb Hn). pose proof (access_life _ _ _ sg H) as HL. unfold access_story in HL.
  destruct (sv_access s !! sg) as [c|].
  - destruct HL as (x & later & ev & r0 & t & Hl & Hsv & _ & _ & Hsc & He & _ & _ & Hend). split.
    + intros (? & [= <-] & H1 & H2). exists x, later, ev, r0, t. split_and!; try done; [by rewrite <- Hsc|lia].
    + intros (x' & later' & ev' & r' & t' & Hl' & Hsv' & H1 & H2 & _). destruct (last_step_fun _ _ _ _ _ _ Hl Hl') as [<- <-].
      destruct (served_fun _ _ _ _ _ _ _ Hsv Hsv') as (<- & <- & [= <-]). exists c. split; [done|]. split; [lia|by rewrite Hsc].
  - split; [by intros (? & ? & _)|]. intros (x' & later' & ev' & r' & t' & Hl' & Hsv' & H1 & H2 & H3).
    destruct (HL _ _ Hl') as (y & Hy & Hend). by apply H3 in Hy.
Qed.

(** ** C49 *)
Lemma last_step_in P l x later : last_step P l x later -> In x l /\ P x.
Proof. intros (e & -> & HP & _). split; [|done]. apply in_or_app. right. by left. Qed.
Lemma c49_access : forall cfg l s now r str sg required w w', history cfg l s ->
  bearer r str -> names (cfg_secret cfg) str sg -> authorize now s r required w = Some (true, w') ->
  exists x, In x l /\ issues_access (cfg_secret cfg) x sg.
Proof.
  intros cfg l s now r str sg required w w' H Hb Hn Ha.
  assert (exists w', authorize now s r required w = Some (true, w')) as Hx by eauto.
  apply (c50_access _ _ _ _ _ _ _ _ _ H Hb Hn) in Hx as (x & later & _ & _ & _ & Hl & _). apply last_step_in in Hl. by exists x.
Qed.
Lemma c49_refresh : forall cfg l s ev r s' t sg, history cfg l s ->
  handle ev s r = Done s' (OToken t) -> presents_refresh (cfg_secret cfg) r sg ->
  exists x, In x l /\ issues_refresh (cfg_secret cfg) x sg.
Proof.
  intros cfg l s ev r s' t sg H Hh Hp. rewrite <- (history_secret _ _ _ H) in Hp.
  destruct (presented_refresh _ _ _ _ _ _ Hh Hp) as (d & Hd & _). pose proof (refresh_life _ _ _ sg H) as HL. unfold refresh_story in HL.
  rewrite Hd in HL. destruct HL as (x & later & _ & _ & _ & Hl & _). apply last_step_in in Hl as (Hx & Hy & _). by exists x.
Qed.
Lemma c49_code : forall cfg l s ev r s' t sg, history cfg l s ->
  handle ev s r = Done s' (OToken t) -> presents_code (cfg_secret cfg) r sg ->
  exists x ev0 r0, In x l /\ grants_code (cfg_secret cfg) x sg ev0 r0.
Proof.
  intros cfg l s ev r s' t sg H Hh Hp. destruct (c35_provenance _ _ _ _ _ _ _ _ H Hh Hp) as (x & later & ev0 & r0 & Hl & Hg & _).
  apply last_step_in in Hl as (Hx & _). by exists x, ev0, r0.
Qed.

Lemma c49_restart : forall cfg l s sg, history cfg l s ->
  (forall x, In x l -> ~ issues_access (cfg_secret cfg) x sg /\ ~ issues_refresh (cfg_secret cfg) x sg /\ ~ issues_code (cfg_secret cfg) x sg) ->
  (forall now r str required w, unsent w -> bearer r str -> names (cfg_secret cfg) str sg ->
     exists w', authorize now s r required w = Some (false, w')) /\
  (forall ev r s' x, names (cfg_secret cfg) (body_param r "token") sg -> handle ev s r = Done s' (OIntro x) -> reports_nothing x) /\
  (forall ev r s', names (cfg_secret cfg) (body_param r "token") sg -> handle ev s r = Done s' ORevoked -> s' = s) /\
  (forall ev r s' t, presents_refresh (cfg_secret cfg) r sg -> handle ev s r <> Done s' (OToken t)) /\
  (forall ev r s' t, presents_code (cfg_secret cfg) r sg -> handle ev s r <> Done s' (OToken t)).
Proof.
  intros cfg l s sg H Hno. pose proof (history_secret _ _ _ H) as Hsec.
  assert (Ha : sv_access s !! sg = None).
  { pose proof (access_life _ _ _ sg H) as HL. unfold access_story in HL. destruct (sv_access s !! sg); [|done].
    destruct HL as (x & later & _ & _ & _ & Hl & _). apply last_step_in in Hl as [Hx Hy]. by destruct (Hno x Hx). }
  assert (Hr : sv_refresh s !! sg = None).
  { pose proof (refresh_life _ _ _ sg H) as HL. unfold refresh_story in HL. destruct (sv_refresh s !! sg); [|done].
    destruct HL as (x & later & _ & _ & _ & Hl & _). apply last_step_in in Hl as (Hx & Hy & _). by destruct (Hno x Hx) as (_ & ? & _). }
  split_and!.
  - intros now r str required w Hw Hb Hnm. apply refuses; [done|]. intros Hy. rewrite <- Hsec in Hnm.
    rewrite (names_bearer_access _ _ _ _ _ _ _ Hb Hnm) in Hy. destruct Hy as (c & Hy & _). congruence.
  - intros ev r s' x Hnm Hh. rewrite <- Hsec in Hnm.
    destruct (c47_discloses _ _ _ _ _ Hh) as [Hx|(c & kind & _ & _ & [(_ & sg' & Hn' & Hx)|(_ & sg' & Hn' & Hx)])]; [done|..];
      exfalso; rewrite (names_fun _ _ _ _ Hn' Hnm) in Hx; congruence.
  - intros ev r s' Hnm Hh. rewrite <- Hsec in Hnm. apply handled_of in Hh. inversion Hh; subst; clear Hh.
    match goal with Hx : at_lookup _ _ _ _ _ |- _ => apply at_lookup_facts in Hx as (_ & _ & _ & _ & Hn) end.
    rewrite (names_fun _ _ _ _ Hn Hnm). rewrite !delete_notin by done. by destruct s.
  - intros ev r s' t Hp Hh. destruct (c49_refresh _ _ _ _ _ _ _ _ H Hh Hp) as (x & Hx & Hy). by destruct (Hno x Hx) as (_ & ? & _).
  - intros ev r s' t Hp Hh. destruct (c49_code _ _ _ _ _ _ _ _ H Hh Hp) as (x & ev0 & r0 & Hx & c & Hs & Hn & _).
    destruct (Hno x Hx) as (_ & _ & Hc). apply Hc. exists ev0, r0, (OCode c). split; [done|]. by exists c.
Qed.

(** ** C30, C37 in histories *)
Lemma c30_history : forall cfg l s ev r s' t sg l' s'' r' required now w, history cfg l s ->
  handle ev s r = Done s' (OToken t) -> names (cfg_secret cfg) (tr_access_token t) sg -> run s' l' s'' ->
  (forall y, In y l' -> ~ issues_access (cfg_secret cfg) y sg /\ ~ ends_access (cfg_secret cfg) (step_of s (Serve ev r)) y sg) ->
  (0 <= cfg_access_lifespan cfg)%Z -> bearer r' (tr_access_token t) -> covers (tr_scope t) required ->
  (now <= ev_now_access ev + tr_expires_in t * second)%Z ->
  exists w', authorize now s'' r' required w = Some (true, w').
Proof.
  intros cfg l s ev r s' t sg l' s'' r' required now w H Hh Hn Hrun Hl' Hpos Hb Hcov Hle.
  pose proof (c30_expires_in _ _ _ _ _ Hh) as He. rewrite (history_config _ _ _ H) in He.
  assert (Hx : history cfg (step_of s (Serve ev r) :: l) s').
  { replace s' with (fst (do_op s (Serve ev r))) by (rewrite step_serve, Hh; done). by constructor. }
  pose proof (run_app _ _ _ _ _ Hx Hrun) as Hall.
  apply (c50_access _ _ _ _ _ _ _ _ _ Hall Hb Hn). exists (step_of s (Serve ev r)), l', ev, r, t. split; [|split; [|split; [done|split]]].
  - exists l. split; [done|]. split; [|intros y Hy; by apply Hl']. exists ev, r, (OToken t). split; [apply served_step; eauto|by exists t].
  - apply served_step. eauto.
  - rewrite He in Hle. pose proof (Z.quot_rem' (cfg_access_lifespan cfg) second). pose proof (Z.rem_nonneg (cfg_access_lifespan cfg) second ltac:(done) Hpos). lia.
  - intros y Hy. by apply Hl'.
Qed.
Lemma c37_direct : forall cfg l s x later y k, history cfg l s ->
  redeems_code (cfg_secret cfg) x k -> In y later -> refused_as_unknown (cfg_secret cfg) y k ->
  (forall sg now r str required w, last_step (fun z => issues_access (cfg_secret cfg) z sg) l x later ->
     unsent w -> bearer r str -> names (cfg_secret cfg) str sg -> exists w', authorize now s r required w = Some (false, w')) /\
  (forall sg ev r s' t, last_step (fun z => issues_refresh (cfg_secret cfg) z sg) l x later ->
     presents_refresh (cfg_secret cfg) r sg -> handle ev s r <> Done s' (OToken t)).
Proof.
  intros cfg l s x later y k H Hk Hy Hu. split.
  - intros sg now r str required w Hl Hw Hb Hn. apply refuses; [done|]. intros Hz.
    apply (c50_access _ _ _ _ _ _ _ _ _ H Hb Hn) in Hz as (x' & later' & ev' & r' & t' & Hl' & Hsv' & H1 & H2 & H3).
    destruct (last_step_fun _ _ _ _ _ _ Hl Hl') as [<- <-]. apply (H3 y Hy). right. left. by exists k.
  - intros sg ev r s' t Hl Hp Hh. rewrite <- (history_secret _ _ _ H) in Hp.
    destruct (presented_refresh _ _ _ _ _ _ Hh Hp) as (d & Hd & _). pose proof (refresh_life _ _ _ sg H) as HL. unfold refresh_story in HL.
    rewrite Hd in HL. destruct HL as (x' & later' & ev1 & r1 & t1 & Hl' & _ & _ & _ & _ & _ & _ & _ & Hend).
    assert (Hl2 : last_step (fun z => issues_refresh (cfg_secret cfg) z sg /\ ~ redeems_refresh (cfg_secret cfg) z sg) l x later).
    { destruct Hl as (e & -> & HP & HN). exists e. split; [done|]. split; [split; [done|]|].
      - intros (ev2 & r2 & t2 & Hs2 & (_ & Hg2 & _)). destruct Hk as (ev3 & r3 & t3 & Hs3 & (_ & Hg3 & _)).
        destruct (served_fun _ _ _ _ _ _ _ Hs2 Hs3) as (_ & <- & _). congruence.
      - intros z Hz [Hx _]. by apply (HN z). }
    destruct (last_step_fun _ _ _ _ _ _ Hl2 Hl') as [<- <-]. apply (Hend y Hy). right. right. by exists k.
Qed.

Lemma c37_survives : forall cfg l s y s' x later f sg k now r str required w,
  history cfg l s -> history cfg (y :: l) s' ->
  last_step (fun z => issues_access (cfg_secret cfg) z sg) l x later ->
  redeems_refresh (cfg_secret cfg) x f -> refused_as_unknown (cfg_secret cfg) y k ->
  bearer r str -> names (cfg_secret cfg) str sg ->
  (exists w', authorize now s' r required w = Some (true, w')) <->
  (exists w', authorize now s r required w = Some (true, w')).
Proof.
  intros cfg l s y s' x later f sg k now r str required w H H' Hl Hf Hu Hb Hn.
  rewrite (c50_access _ _ _ now _ _ _ required w H Hb Hn), (c50_access _ _ _ now _ _ _ required w H' Hb Hn).
  destruct Hu as (evy & ry & ey & Hy & (Hye & Hyg & _) & Hyn & Hyd).
  assert (Hno : ~ issues_access (cfg_secret cfg) y sg).
  { intros (ev0 & r0 & o0 & Hs0 & t0 & -> & _). by destruct (served_fun _ _ _ _ _ _ _ Hy Hs0) as (_ & _ & ?). }
  assert (Hl' : last_step (fun z => issues_access (cfg_secret cfg) z sg) (y :: l) x (y :: later)).
  { destruct Hl as (e & -> & HP & HN). exists e. split; [done|]. split; [done|]. intros z [<-|Hz]; [done|by apply HN]. }
  assert (Hend : ~ ends_access (cfg_secret cfg) x y sg).
  { intros [(ev0 & r0 & Hs0 & _)|[(k0 & (ev0 & r0 & t0 & Hs0 & (_ & Hg0 & _)) & _)|Hw]].
    - by destruct (served_fun _ _ _ _ _ _ _ Hy Hs0) as (_ & _ & ?).
    - destruct Hf as (ev1 & r1 & t1 & Hs1 & (_ & Hg1 & _)).
      destruct (served_fun _ _ _ _ _ _ _ Hs0 Hs1) as (_ & <- & _). congruence.
    - destruct Hw as (ev0 & r0 & e0 & ? & ? & ? & ? & Hs0 & _ & _ & Hn0 & _).
      destruct (served_fun _ _ _ _ _ _ _ Hy Hs0) as (_ & _ & Ee). injection Ee as <-. congruence. }
  split; intros (x1 & later1 & ev1 & r1 & t1 & Hl1 & H1 & H2 & H3 & H4).
  - destruct (last_step_fun _ _ _ _ _ _ Hl' Hl1) as [<- <-]. exists x, later, ev1, r1, t1.
    split; [done|]. split; [done|]. split; [done|]. split; [done|]. intros z Hz. apply H4. by right.
  - destruct (last_step_fun _ _ _ _ _ _ Hl Hl1) as [<- <-]. exists x, (y :: later), ev1, r1, t1.
    split; [done|]. split; [done|]. split; [done|]. split; [done|]. intros z [<-|Hz]; [done|by apply H4].
Qed.

(** ** C60, C61 *)
Lemma c60_refresh : forall cfg l s ev r sg id, history cfg l s ->
  complete_token_request r -> from_client s r id -> presents_refresh (cfg_secret cfg) r sg -> enough_random ev s 2 ->
  (exists s' t, handle ev s r = Done s' (OToken t)) <->
  (exists x later ev0 r0 t0,
     last_step (fun y => issues_refresh (cfg_secret cfg) y sg /\ ~ redeems_refresh (cfg_secret cfg) y sg) l x later /\
     served x ev0 r0 (OToken t0) /\ acts_for r0 id /\
     covers (tr_scope t0) (parse_scope (body_param r "scope")) /\
     (ev_now_check ev <= ev_now_refresh ev0 + cfg_refresh_lifespan cfg)%Z /\
     forall y, In y later -> ~ ends_refresh (cfg_secret cfg) x y sg).
Proof.
  intros cfg l s ev r sg id H Hc Hf (He & Hg & Hn) Hrand. rewrite c59_refresh by done.
  pose proof (history_secret _ _ _ H) as Hsec.
  pose proof (refresh_life _ _ _ sg H) as HL. unfold refresh_story in HL. rewrite <- Hsec in Hn.
  assert (HA : forall d, refresh_token s (body_param r "refresh_token") d <-> sv_refresh s !! sg = Some d).
  { intros d. split; [intros (sg' & Hn' & Hd); by rewrite (names_fun _ _ _ _ Hn Hn')|]. intros Hd. by exists sg. }
  destruct (sv_refresh s !! sg) as [d|].
  - destruct HL as (x & later & ev0 & r0 & t & Hl & Hsv & _ & Ha & Hsc & Hex & _ & _ & Hend). split.
    + intros ((d' & Hd & H1 & H2 & H3) & _). apply HA in Hd as [= <-]. exists x, later, ev0, r0, t. split; [done|]. split; [done|].
      split; [by rewrite <- H2|]. split; [by rewrite <- Hsc|]. split; [lia|done].
    + intros (x' & later' & ev' & r' & t' & Hl' & Hsv' & H1 & H2 & H3 & _). destruct (last_step_fun _ _ _ _ _ _ Hl Hl') as [<- <-].
      destruct (served_fun _ _ _ _ _ _ _ Hsv Hsv') as (<- & <- & [= <-]). split; [|done]. exists d. split; [by apply HA|].
      split; [lia|]. split; [by eapply acts_for_fun|by rewrite Hsc].
  - split; [intros ((d' & Hd & _) & _); by apply HA in Hd|]. intros (x' & later' & ev' & r' & t' & Hl' & Hsv' & H1 & H2 & H3 & H4).
    destruct (HL _ _ Hl') as (y & Hy & Hend). by apply H4 in Hy.
Qed.
Lemma c61_code : forall cfg l s ev r sg id, history cfg l s ->
  complete_token_request r -> from_client s r id -> presents_code (cfg_secret cfg) r sg -> enough_random ev s 2 ->
  (exists s' t, handle ev s r = Done s' (OToken t)) <->
  (exists x later ev0 r0 c0,
     last_step (fun y => issues_code (cfg_secret cfg) y sg) l x later /\
     served x ev0 r0 (OCode c0) /\ form_param r0 "client_id" = id /\
     query_unescape (form_param r0 "redirect_uri") = query_unescape (body_param r "redirect_uri") /\
     (ev_now_check ev <= ev_now_code ev0 + cfg_code_lifespan cfg)%Z /\
     forall y, In y later -> ~ redeems_code (cfg_secret cfg) y sg).
Proof.
  intros cfg l s ev r sg id H Hc Hf (He & Hg & Hn) Hrand. rewrite c59_code by done.
  pose proof (history_secret _ _ _ H) as Hsec.
  pose proof (code_life _ _ _ sg H) as HL. unfold code_story in HL. rewrite <- Hsec in Hn.
  assert (HA : forall d, auth_code s (body_param r "code") d <-> sv_codes s !! sg = Some d).
  { intros d. split; [intros (sg' & Hn' & Hd); by rewrite (names_fun _ _ _ _ Hn Hn')|]. intros Hd. by exists sg. }
  destruct (sv_codes s !! sg) as [d|].
  - destruct HL as (x & later & ev0 & r0 & c & Hl & Hsv & Hnc & H1 & H2 & H3 & H4 & H5 & H6 & H7 & H8 & H9 & Hus). split.
    + intros ((d' & Hd & Hx1 & Hx2 & Hx3 & Hx4) & _). apply HA in Hd as [= <-]. exists x, later, ev0, r0, c. split; [done|]. split; [done|].
      split; [congruence|]. split; [congruence|]. split; [lia|by apply Hus].
    + intros (x' & later' & ev' & r' & t' & Hl' & Hsv' & Hx1 & Hx2 & Hx3 & Hx4). destruct (last_step_fun _ _ _ _ _ _ Hl Hl') as [<- <-].
      destruct (served_fun _ _ _ _ _ _ _ Hsv Hsv') as (<- & <- & _). split; [|done]. exists d. split; [by apply HA|].
      split; [by apply Hus|]. split; [lia|]. split; congruence.
  - split; [intros ((d' & Hd & _) & _); by apply HA in Hd|]. intros (x' & later' & ev' & r' & t' & Hl' & _).
    apply last_step_in in Hl' as [Hx Hy]. by destruct (HL _ Hx).
Qed.
(** ** C36: which tokens a replay ends *)
Lemma c36_access : forall cfg l s y s' k sg x later now r str required w,
  history cfg l s -> history cfg (y :: l) s' -> refused_as_unknown (cfg_secret cfg) y k ->
  last_step (fun z => issues_access (cfg_secret cfg) z sg) l x later ->
  bearer r str -> names (cfg_secret cfg) str sg ->
  (exists w', authorize now s' r required w = Some (true, w')) <->
  ~ redeems_code (cfg_secret cfg) x k /\ exists w', authorize now s r required w = Some (true, w').
Proof.
  intros cfg l s y s' k sg x later now r str required w H H' Hu Hl Hb Hn.
  rewrite (c50_access _ _ _ now _ _ _ required w H Hb Hn), (c50_access _ _ _ now _ _ _ required w H' Hb Hn).
  pose proof Hu as (evy & ry & ey & Hy & (Hye & Hyg & Hyk) & Hyn & Hyd).
  assert (Hno : ~ issues_access (cfg_secret cfg) y sg).
  { intros (ev0 & r0 & o0 & Hs0 & t0 & -> & _). by destruct (served_fun _ _ _ _ _ _ _ Hy Hs0) as (_ & _ & ?). }
  assert (Hl' : last_step (fun z => issues_access (cfg_secret cfg) z sg) (y :: l) x (y :: later)).
  { destruct Hl as (e & -> & HP & HN). exists e. split; [done|]. split; [done|]. intros z [<-|Hz]; [done|by apply HN]. }
  assert (Hend : ends_access (cfg_secret cfg) x y sg -> redeems_code (cfg_secret cfg) x k).
  { intros [(ev0 & r0 & Hs0 & _)|[(k0 & Hk0 & (ev0 & r0 & t0 & Hs0 & (_ & _ & Hn0) & _))|Hw]].
    - by destruct (served_fun _ _ _ _ _ _ _ Hy Hs0) as (_ & _ & ?).
    - destruct (served_fun _ _ _ _ _ _ _ Hy Hs0) as (_ & <- & _). by rewrite (names_fun _ _ _ _ Hyk Hn0).
    - destruct Hw as (ev0 & r0 & e0 & ? & ? & ? & ? & Hs0 & _ & _ & Hn0 & _).
      destruct (served_fun _ _ _ _ _ _ _ Hy Hs0) as (_ & _ & Ee). injection Ee as <-. congruence. }
  split.
  - intros (x1 & later1 & ev1 & r1 & t1 & Hl1 & H1 & H2 & H3 & H4).
    destruct (last_step_fun _ _ _ _ _ _ Hl' Hl1) as [<- <-]. split.
    + intros Hk. apply (H4 y); [by left|]. right. left. by exists k.
    + exists x, later, ev1, r1, t1.
      split; [done|]. split; [done|]. split; [done|]. split; [done|]. intros z Hz. apply H4. by right.
  - intros (Hk & x1 & later1 & ev1 & r1 & t1 & Hl1 & H1 & H2 & H3 & H4).
    destruct (last_step_fun _ _ _ _ _ _ Hl Hl1) as [<- <-]. exists x, (y :: later), ev1, r1, t1.
    split; [done|]. split; [done|]. split; [done|]. split; [done|]. intros z [<-|Hz]; [by intros Hz%Hend|by apply H4].
Qed.
Lemma c36_refresh : forall cfg l s y s' k sg x later ev r id,
  history cfg l s -> history cfg (y :: l) s' -> refused_as_unknown (cfg_secret cfg) y k ->
  last_step (fun z => issues_refresh (cfg_secret cfg) z sg /\ ~ redeems_refresh (cfg_secret cfg) z sg) l x later ->
  complete_token_request r -> from_client s r id -> from_client s' r id ->
  presents_refresh (cfg_secret cfg) r sg -> enough_random ev s 2 ->
  (exists s2 t, handle ev s' r = Done s2 (OToken t)) <->
  ~ redeems_code (cfg_secret cfg) x k /\ exists s2 t, handle ev s r = Done s2 (OToken t).
Proof.
  intros cfg l s y s' k sg x later ev r id H H' Hu Hl Hc Hf Hf' Hp Hr.
  assert (Hr' : enough_random ev s' 2).
  { unfold enough_random in *. rewrite (history_config _ _ _ H'). by rewrite (history_config _ _ _ H) in Hr. }
  rewrite (c60_refresh _ _ _ _ _ _ _ H Hc Hf Hp Hr), (c60_refresh _ _ _ _ _ _ _ H' Hc Hf' Hp Hr').
  pose proof Hu as (evy & ry & ey & Hy & (Hye & Hyg & Hyk) & Hyn & Hyd).
  assert (Hno : ~ (issues_refresh (cfg_secret cfg) y sg /\ ~ redeems_refresh (cfg_secret cfg) y sg)).
  { intros [(ev0 & r0 & o0 & Hs0 & t0 & -> & _) _]. by destruct (served_fun _ _ _ _ _ _ _ Hy Hs0) as (_ & _ & ?). }
  assert (Hl' : last_step (fun z => issues_refresh (cfg_secret cfg) z sg /\ ~ redeems_refresh (cfg_secret cfg) z sg) (y :: l) x (y :: later)).
  { destruct Hl as (e & -> & HP & HN). exists e. split; [done|]. split; [done|]. intros z [<-|Hz]; [done|by apply HN]. }
  assert (Hend : ends_refresh (cfg_secret cfg) x y sg -> redeems_code (cfg_secret cfg) x k).
  { intros [(ev0 & r0 & Hs0 & _)|[(ev0 & r0 & t0 & Hs0 & _)|(k0 & Hk0 & (ev0 & r0 & t0 & Hs0 & (_ & _ & Hn0) & _))]].
    - by destruct (served_fun _ _ _ _ _ _ _ Hy Hs0) as (_ & _ & ?).
    - by destruct (served_fun _ _ _ _ _ _ _ Hy Hs0) as (_ & _ & ?).
    - destruct (served_fun _ _ _ _ _ _ _ Hy Hs0) as (_ & <- & _). by rewrite (names_fun _ _ _ _ Hyk Hn0). }
  split.
  - intros (x1 & later1 & ev1 & r1 & t1 & Hl1 & H1 & H2 & H3 & H4 & H5).
    destruct (last_step_fun _ _ _ _ _ _ Hl' Hl1) as [<- <-]. split.
    + intros Hk. apply (H5 y); [by left|]. right. right. by exists k.
    + exists x, later, ev1, r1, t1.
      split; [done|]. split; [done|]. split; [done|]. split; [done|]. split; [done|]. intros z Hz. apply H5. by right.
  - intros (Hk & x1 & later1 & ev1 & r1 & t1 & Hl1 & H1 & H2 & H3 & H4 & H5).
    destruct (last_step_fun _ _ _ _ _ _ Hl Hl1) as [<- <-]. exists x, (y :: later), ev1, r1, t1.
    split; [done|]. split; [done|]. split; [done|]. split; [done|]. split; [done|]. intros z [<-|Hz]; [by intros Hz%Hend|by apply H5].
Qed.
Lemma redeems_one secret x k sg : redeems_code secret x k -> ~ redeems_refresh secret x sg.
Proof.
  intros (ev3 & r3 & t3 & Hs3 & (_ & Hg3 & _)) (ev2 & r2 & t2 & Hs2 & (_ & Hg2 & _)).
  destruct (served_fun _ _ _ _ _ _ _ Hs2 Hs3) as (_ & <- & _). congruence.
Qed.
