(** Proofs of C98. *)
From Verif.Model Require Import Server History.
From Verif.Spec Require Import TokenSpec ScopeSpec WireSpec RequestSpec ServerSpec HistorySpec HashSpec ForgerySpec.
From Verif.Proof Require Import StrFacts Base64Facts HsFacts HashProofs TokenProofs ServerFacts Steps GrantProofs ServerProofs EffectProofs HistoryFacts HistoryProofs.

#[local] Opaque handle parse_token hmac_sha256.

Lemma hmac_collision secret k k' : k <> k' -> hmac_sha256 secret k = hmac_sha256 secret k' -> lead_to_collision secret k k'.
Proof.
  intros Hne Heq.
  destruct (proj2 (c86_hmac secret k _) eq_refl) as (b & i & Hb & Hi & Ho).
  destruct (proj2 (c86_hmac secret k' _) eq_refl) as (b' & i' & Hb' & Hi' & Ho'). rewrite <- Heq in Ho'.
  assert (b' = b) as ->.
  { destruct Hb as [[? ->]|[? Hb]], Hb' as [[? ->]|[? Hb']]; try done; try lia. exact (sha256_unique _ _ _ Hb' Hb). }
  exists (b ++ repeat 0%N (64 - length b))%list. split; [by exists b|]. cbv zeta.
  destruct (List.list_eq_dec N.eq_dec i i') as [<-|Hn].
  - left. split; [|by exists i]. intros H. apply app_inv_head in H. by apply Hne, string_bytes_inj.
  - right. exists i, i'. split; [done|]. split; [done|]. split; [|eauto]. intros H. by apply app_inv_head in H.
Qed.

Lemma copied secret str issued sg : names secret str sg -> names secret issued sg -> copied_or_collides secret str issued.
Proof.
  intros (s0 & s1 & k & H1 & H2 & H3 & H4) (s0' & s1' & k' & H1' & H2' & H3' & H4').
  assert (He : hmac_sha256 secret k = hmac_sha256 secret k').
  { apply canonical_unique in H4. apply canonical_unique in H4'. subst sg. by apply rawurl_encode_inj. }
  destruct (string_dec k k') as [<-|Hn].
  - left. exists k, (hmac_sha256 secret k), s0, s1, s0', s1'. done.
  - right. exists k, k'. split; [by exists s0, s1|]. split; [by exists s0', s1'|]. split; [done|]. by apply hmac_collision.
Qed.

Lemma c98_access : forall cfg l s now r required w w', history cfg l s ->
  authorize now s r required w = Some (true, w') ->
  exists str x ev r0 t, bearer r str /\ In x l /\ served x ev r0 (OToken t) /\
    copied_or_collides (cfg_secret cfg) str (tr_access_token t).
Proof.
  intros cfg l s now r required w w' H Ha.
  assert (exists w', authorize now s r required w = Some (true, w')) as Hx by eauto.
  apply c27_granted in Hx as (str & c & Hb & (sg & Hn & _) & _). unfold server_secret in Hn.
  rewrite (history_config _ _ _ H) in Hn.
  destruct (c49_access _ _ _ _ _ _ _ _ _ _ H Hb Hn Ha) as (x & Hx & ev & r0 & o & Hs & t & -> & Hi).
  exists str, x, ev, r0, t. split; [done|]. split; [done|]. split; [done|]. exact (copied _ _ _ _ Hn Hi).
Qed.

Lemma c98_refresh : forall cfg l s ev r s' t, history cfg l s ->
  handle ev s r = Done s' (OToken t) -> endpoint r "token" -> body_param r "grant_type" = "refresh_token" ->
  exists x ev0 r0 t0, In x l /\ served x ev0 r0 (OToken t0) /\
    copied_or_collides (cfg_secret cfg) (body_param r "refresh_token") (tr_refresh_token t0).
Proof.
  intros cfg l s ev r s' t H Hh He Hg. destruct (c32_refresh _ _ _ _ _ Hh He Hg) as (d & (sg & Hn & Hd) & _).
  unfold server_secret in Hn. rewrite (history_config _ _ _ H) in Hn.
  assert (Hp : presents_refresh (cfg_secret cfg) r sg) by done.
  destruct (c49_refresh _ _ _ _ _ _ _ _ H Hh Hp) as (x & Hx & ev0 & r0 & o & Hs & t0 & -> & Hi).
  exists x, ev0, r0, t0. split; [done|]. split; [done|]. exact (copied _ _ _ _ Hn Hi).
Qed.

Lemma c98_code : forall cfg l s ev r s' t, history cfg l s ->
  handle ev s r = Done s' (OToken t) -> endpoint r "token" -> body_param r "grant_type" = "authorization_code" ->
  exists x ev0 r0 c0, In x l /\ served x ev0 r0 (OCode c0) /\
    copied_or_collides (cfg_secret cfg) (body_param r "code") (cr_code c0).
Proof.
  intros cfg l s ev r s' t H Hh He Hg. destruct (c35_redeem _ _ _ _ _ Hh He Hg) as (d & sg1 & (sg & Hn & Hd) & _).
  unfold server_secret in Hn. rewrite (history_config _ _ _ H) in Hn.
  assert (Hp : presents_code (cfg_secret cfg) r sg) by done.
  destruct (c49_code _ _ _ _ _ _ _ _ H Hh Hp) as (x & ev0 & r0 & Hx & c0 & Hs & Hi & _).
  exists x, ev0, r0, c0. split; [done|]. split; [done|]. exact (copied _ _ _ _ Hn Hi).
Qed.

Lemma c98_introspection : forall cfg l s ev r s' x, history cfg l s ->
  handle ev s r = Done s' (OIntro x) -> ~ reports_nothing x ->
  exists y ev0 r0 t0, In y l /\ served y ev0 r0 (OToken t0) /\
    (copied_or_collides (cfg_secret cfg) (body_param r "token") (tr_access_token t0) \/
     copied_or_collides (cfg_secret cfg) (body_param r "token") (tr_refresh_token t0)).
Proof.
  intros cfg l s ev r s' x H Hh Hx.
  destruct (c47_discloses _ _ _ _ _ Hh) as [?|(c & kind & _ & _ & [(_ & sg & Hn & Hc)|(_ & sg & Hn & Hc)])]; [done|..];
    unfold server_secret in Hn; rewrite (history_config _ _ _ H) in Hn.
  - pose proof (access_life _ _ _ sg H) as HL. unfold access_story in HL. rewrite Hc in HL.
    destruct HL as (y & later & _ & _ & _ & Hl & _). apply last_step_in in Hl as (Hy & ev0 & r0 & o & Hs & t0 & -> & Hi).
    exists y, ev0, r0, t0. split; [done|]. split; [done|]. left. exact (copied _ _ _ _ Hn Hi).
  - pose proof (refresh_life _ _ _ sg H) as HL. unfold refresh_story in HL. rewrite Hc in HL.
    destruct HL as (y & later & _ & _ & _ & Hl & _). apply last_step_in in Hl as (Hy & (ev0 & r0 & o & Hs & t0 & -> & Hi) & _).
    exists y, ev0, r0, t0. split; [done|]. split; [done|]. right. exact (copied _ _ _ _ Hn Hi).
Qed.

Lemma c98_signatures : forall secret k k',
  hs_signature (token_from_key secret k) = hs_signature (token_from_key secret k') ->
  k = k' \/ lead_to_collision secret k k'.
Proof. intros secret k k' H. destruct (string_dec k k') as [->|Hn]; [by left|right]. by apply hmac_collision. Qed.
