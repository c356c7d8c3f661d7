(** C55: clients and servers. *)
From Verif.Model Require Import Server Client History.
From Verif.Spec Require Import TokenSpec ScopeSpec WireSpec RequestSpec ServerSpec HistorySpec ClientSpec.
From Verif.Proof Require Import StrFacts HsFacts UrlFacts UrlParse JsonFacts ScopeProofs WireFacts WireProofs ServerFacts Steps
  RequestProofs RequestParse ServerProofs GrantProofs EffectProofs HistoryFacts HistoryProofs CodecFacts CodecProofs.

#[local] Opaque handle parse_token.

(** ** Requests *)
Lemma leads_endpoint uri name vals a b r : leads_to uri name -> build_post uri vals a b = Some r -> endpoint r name.
Proof.
  intros (u & p & Hu & Hp & _) H. unfold build_post in H. rewrite Hu in H. injection H as <-. left. by exists p.
Qed.

Lemma token_call_fields uri name q r : leads_to uri name -> expressible_token q ->
  build_token_request uri q = Some r -> fits_form_limit r ->
  endpoint r name /\ (exists q', parse_token_request r = inl q') /\
  client_credentials r = (tq_client_id q, tq_client_secret q) /\
  body_param r "grant_type" = tq_grant_type q /\ body_param r "username" = tq_username q /\
  body_param r "password" = tq_password q /\ body_param r "refresh_token" = tq_refresh_token q /\
  body_param r "code" = tq_code q /\ query_unescape (body_param r "redirect_uri") = Some (tq_redirect_uri q) /\
  items (parse_scope (body_param r "scope")) = items (tq_scope q).
Proof.
  intros Hl (Hg & Hc & Hcol & Hsc & Hr) Hb Hlim. split; [exact (leads_endpoint _ _ _ _ _ _ Hl Hb)|].
  destruct Hl as (u & p & Hu & _ & Hq).
  destruct (c22_roundtrip uri u q r Hu Hq Hg Hc Hcol Hsc Hr Hb Hlim) as (q' & Hq' & Hs).
  split; [by exists q'|]. apply GrantProofs.parse_token_inl in Hq' as (_ & H1 & H2 & H3 & H4 & H5 & H6 & H7 & H8 & _).
  destruct Hs as (E1 & E2 & E3 & E4 & E5 & E6 & E7 & E8 & E9).
  rewrite <- H2, <- H3, <- H4, <- H5, <- H6, <- H7, H1, H8, E1, E2, E3, E4, E5, E6, E7, E8, E9. done.
Qed.

Lemma lookup_call_fields uri name q r : leads_to uri name -> expressible_lookup q ->
  build_lookup_request uri q = Some r -> fits_form_limit r ->
  endpoint r name /\ complete_lookup_request r /\
  client_credentials r = (lq_client_id q, lq_client_secret q) /\ body_param r "token" = lq_token q.
Proof.
  intros Hl (Ht & Hc & Hcol & Hh) Hb Hlim. split; [exact (leads_endpoint _ _ _ _ _ _ Hl Hb)|].
  destruct Hl as (u & p & Hu & _ & Hq).
  pose proof (c23_roundtrip uri u q r Hu Hq Ht Hcol (or_introl Hc) Hb Hlim) as Hp.
  pose proof Hp as Hp2. apply parse_lookup_inl in Hp2 as (_ & _ & H1 & H2 & H3 & _).
  split; [|by rewrite H1, H2]. split; [by exists q|]. by rewrite <- H3.
Qed.

(** ** Texts *)
Lemma token_string_text a : valid_utf8 (token_string a).
Proof.
  apply ascii_utf8. unfold token_string, key_string, signature_string, rawurl_encode. rewrite !all_bytes_app.
  rewrite !andb_true_iff. split_and!; try done; apply Base64Facts.encode_all_bytes; try done; vm_compute; reflexivity.
Qed.
Lemma covered_text a b : scope_text a -> covers a b -> scope_text b.
Proof.
  intros [H1 H2] H. rewrite Forall_forall in H1, H2. split; apply Forall_forall; intros x Hx; apply elem_of_list_In in Hx;
    [apply H1|apply H2]; apply elem_of_list_In; by apply H.
Qed.
Lemma issued_texts cfg l s ev r s' t : history cfg l s -> config_texts cfg ->
  handle ev s r = Done s' (OToken t) -> valid_utf8 (tr_state t) -> token_texts t.
Proof.
  intros H [Hs Hl] Hh Hst. pose proof (history_config _ _ _ H) as Hc.
  assert (Hcov : covers (cfg_allowed_scope cfg) (tr_scope t)).
  { rewrite <- Hc. eapply (within_step ev s r); [by eapply all_within_history|exact Hh]. }
  apply token_answer_cases in Hh as (t0 & client & owner & code & (Ha & Hr & Hsc & He & Hty) & Hi).
  unfold token_texts. rewrite Ha, Hr, He, Hty.
  destruct Hi as [(s1 & (a & src & f & src' & _ & _ & -> & _) & _)|(a & src & _ & -> & _)];
    cbn [tr_token_type tr_access_token tr_expires_in tr_refresh_token]; rewrite ?Hc;
    (split; [by apply ascii_utf8|split; [apply token_string_text|split; [by apply quot_int64|split; [|split; [by eapply covered_text|done]]]]]);
    [apply token_string_text|by apply ascii_utf8].
Qed.
Lemma no_extra_texts x : ir_extra x = None -> go_map_value float_literal (ir_extra x) /\ (nesting (JObj (default [] (ir_extra x))) < 10000)%N.
Proof. intros ->. split; [|done]. unfold go_map_value. cbn. apply go_object; constructor. Qed.
Lemma introspected_texts cfg l s ev r s' x : history cfg l s -> config_texts cfg -> credential_texts s ->
  handle ev s r = Done s' (OIntro x) -> introspection_texts x.
Proof.
  intros H [Hs _] Hcr Hh. assert (Ha : forall t, all_bytes (fun a => (ord a <? 128)%N) t = true -> valid_utf8 t) by apply ascii_utf8.
  assert (H0 : int64 0) by (unfold int64; lia).
  apply c47_discloses in Hh as [->|(c & kind & _ & (_ & H1 & H2 & H3 & H4 & H5 & H6 & H7 & H8 & H9 & H10 & H11 & H12) & Hk)].
  - unfold introspection_texts, introspection_texts_with, scope_text. cbn -[nesting int64]. split_and!; try (by apply Ha); try done; try (apply List.Forall_nil).
    apply go_object; constructor.
  - destruct (no_extra_texts x H12) as [Hx1 Hx2].
    assert (Hin : exists k, sv_access s !! k = Some c \/ sv_refresh s !! k = Some c).
    { destruct Hk as [[_ (k & _ & Hk)]|[_ (k & _ & Hk)]]; exists k; auto. }
    destruct Hin as [k Hin]. destruct (Hcr k c Hin) as (Ht1 & Ht2 & Ht3).
    assert (Hsc : scope_text (cd_scope c)).
    { eapply covered_text; [exact Hs|]. eapply (c31_scopes cfg l s k); [exact H|tauto]. }
    unfold introspection_texts, introspection_texts_with. rewrite H1, H2, H3, H4, H6, H7, H8, H9, H10, H11. split_and!; try done; try (by apply Ha).
    + destruct Hk as [[-> _]|[-> _]]; by apply Ha.
    + assert (ir_expires_at x = (cd_expires_at c / 1000000000)%Z) as ->; [|done].
      apply Z.div_unique with (r := (cd_expires_at c - ir_expires_at x * 1000000000)%Z); lia.
Qed.
Lemma plain_error_texts e : plain_error e -> error_texts e /\ status_with_body (e_status e) /\ e_redirect_uri e = "".
Proof.
  intros (d & Hd & H). assert (Hd' : valid_utf8 d) by (by apply ascii_utf8).
  assert (Ha : forall t, all_bytes (fun a => (ord a <? 128)%N) t = true -> valid_utf8 t) by apply ascii_utf8.
  unfold error_texts, error_fields_utf8, status_with_body.
  destruct H as [-> |[-> |[-> |[-> |[-> | ->]]]]]; cbn; split_and!; try done; try (by apply Ha); try lia; constructor.
Qed.

(** ** Answers *)
Lemma connected_served ev s r s' w : serve_http ev s r new_rw = (s', Some w) -> connected ev s r = received w.
Proof. intros H. unfold connected. by rewrite H. Qed.

Lemma error_received s' ev s r w c e : serve_http ev s r new_rw = (s', Some w) -> handle ev s r = Done s' (OError e) ->
  plain_error e -> fits w (cc_response_limit c) ->
  exists rs e', connected ev s r = Some rs /\ (rs_status rs =? 200)%Z = false /\
    parse_request_error rs (cc_response_limit c) = GErr e' /\ same_error e e'.
Proof.
  intros Hs Hh Hp Hf. rewrite (connected_served _ _ _ _ _ Hs). unfold serve_http in Hs. rewrite Hh in Hs. injection Hs as Hs.
  destruct (plain_error_texts e Hp) as (Ht & Hst & Hr).
  destruct (c62_roundtrip new_rw e) as (w' & rs & Hw & Hrec & Hrs & Hl); [done..|].
  cbn [write_outcome] in Hs. rewrite Hw in Hs. injection Hs as <-.
  destruct (Hl _ Hf) as (e' & He' & Hsame). exists rs, e'. split; [done|]. rewrite Hrs. split; [|done].
  destruct (plain_error_shape e Hp) as (_ & _ & _ & _ & _ & _ & [(_ & -> & _)|([-> | ->] & _)]); done.
Qed.

Lemma c55_authenticate : forall cfg l s ev c q r s' w, history cfg l s -> config_texts cfg -> token_call ev s c q r ->
  serve_http ev s r new_rw = (s', Some w) ->
  (exists t t', handle ev s r = Done s' (OToken t) /\ client_authenticate c (connected ev s) q = inl t' /\ same_token t t') \/
  (exists e e', handle ev s r = Done s' (OError e) /\ client_authenticate c (connected ev s) q = inr (GErr e') /\ same_error e e').
Proof.
  intros cfg l s ev c q r s' w H Hc (Hb & Hl & Hq & Hlim & Hfit) Hs. specialize (Hfit _ _ Hs).
  pose proof (leads_endpoint _ _ _ _ _ _ Hl Hb) as He.
  destruct (serve_sent _ _ _ _ _ Hs) as (o & Hh & _). unfold client_authenticate. rewrite Hb.
  pose proof Hh as Ho. rewrite handle_token in Ho by done. apply token_answer in Ho as [(e & -> & Hp)|(t & -> & Hr & Hst)].
  - right. destruct (error_received _ _ _ _ _ c _ Hs Hh Hp Hfit) as (rs & e' & -> & Hne & Hpe & Hsame).
    exists e, e'. split; [done|]. rewrite Hne. cbn [negb]. by rewrite Hpe.
  - left. assert (Ht : token_texts t). { eapply issued_texts; [exact H|done|exact Hh|]. rewrite Hst. by apply ascii_utf8. }
    destruct (c56_roundtrip new_rw t) as (w' & rs & Hw & Hrec & Hrs & Hp); [done..|].
    rewrite (connected_served _ _ _ _ _ Hs). unfold serve_http in Hs. rewrite Hh in Hs. injection Hs as Hs.
    cbn [write_outcome] in Hs. rewrite Hw in Hs. injection Hs as <-. destruct (Hp _ Hfit) as (t' & Ht' & Hsame).
    exists t, t'. split; [done|]. rewrite Hrec, Hrs. cbn [Z.eqb Pos.eqb negb]. by rewrite Ht'.
Qed.

Lemma c55_introspect : forall cfg l s ev c q r s' w, history cfg l s -> config_texts cfg -> credential_texts s ->
  introspection_call ev s c q r -> serve_http ev s r new_rw = (s', Some w) ->
  (exists x x', handle ev s r = Done s' (OIntro x) /\ client_introspect c (connected ev s) q = inl x' /\ same_introspection x x') \/
  (exists e e', handle ev s r = Done s' (OError e) /\ client_introspect c (connected ev s) q = inr (GErr e') /\ same_error e e').
Proof.
  intros cfg l s ev c q r s' w H Hc Hcr (Hb & Hl & Hq & Hlim & Hfit) Hs. specialize (Hfit _ _ Hs).
  pose proof (leads_endpoint _ _ _ _ _ _ Hl Hb) as He.
  destruct (serve_sent _ _ _ _ _ Hs) as (o & Hh & _). unfold client_introspect. rewrite Hb.
  pose proof Hh as Ho. rewrite handle_introspect in Ho by done. apply introspection_answer in Ho as [(e & -> & Hp)|(x & -> & Hx)].
  - right. destruct (error_received _ _ _ _ _ c _ Hs Hh Hp Hfit) as (rs & e' & -> & Hne & Hpe & Hsame).
    exists e, e'. split; [done|]. rewrite Hne. cbn [negb]. by rewrite Hpe.
  - left. assert (Ht : introspection_texts x) by (eapply introspected_texts; [exact H|done|done|exact Hh]).
    destruct (c57_roundtrip new_rw x) as (w' & rs & Hw & Hrec & Hrs & Hp); [done| |done|].
    { intros Ha. specialize (Hx Ha). unfold known_token_type, AccessToken, RefreshToken in Hx. apply orb_true_iff in Hx as [Hx|Hx];
        apply seqb_true in Hx; rewrite Hx; cbn; tauto. }
    rewrite (connected_served _ _ _ _ _ Hs). unfold serve_http in Hs. rewrite Hh in Hs. injection Hs as Hs.
    cbn [write_outcome] in Hs. rewrite Hw in Hs. injection Hs as <-. destruct (Hp _ Hfit) as (x' & Hx' & Hsame).
    exists x, x'. split; [done|]. rewrite Hrec, Hrs. cbn [Z.eqb Pos.eqb negb]. by rewrite Hx'.
Qed.

Lemma c55_revoke : forall s ev c q r s' w, revocation_call ev s c q r -> serve_http ev s r new_rw = (s', Some w) ->
  (handle ev s r = Done s' ORevoked /\ client_revoke c (connected ev s) q = None) \/
  (exists e e', handle ev s r = Done s' (OError e) /\ client_revoke c (connected ev s) q = Some (GErr e') /\ same_error e e').
Proof.
  intros s ev c q r s' w (Hb & Hl & Hq & Hlim & Hfit) Hs. specialize (Hfit _ _ Hs).
  pose proof (leads_endpoint _ _ _ _ _ _ Hl Hb) as He.
  destruct (serve_sent _ _ _ _ _ Hs) as (o & Hh & _ & Hsent). unfold client_revoke. rewrite Hb.
  pose proof Hh as Ho. rewrite handle_revoke in Ho by done. apply revocation_answer in Ho as [(e & -> & Hp)| ->].
  - right. destruct (error_received _ _ _ _ _ c _ Hs Hh Hp Hfit) as (rs & e' & -> & Hne & Hpe & Hsame).
    exists e, e'. split; [done|]. rewrite Hne. cbn [negb]. by rewrite Hpe.
  - left. split; [done|]. rewrite (connected_served _ _ _ _ _ Hs). inversion Hsent; subst. done.
Qed.

Lemma c55_panic : forall s ev c q r, build_token_request (cc_base_uri c +:+ cc_token_endpoint c) q = Some r ->
  snd (serve_http ev s r new_rw) = None -> client_authenticate c (connected ev s) q = inr GOther.
Proof. intros s ev c q r Hb Hs. unfold client_authenticate, connected. by rewrite Hb, Hs. Qed.

(** ** What a call achieves *)
Lemma serve_done ev s r s' o : handle ev s r = Done s' o -> exists w, serve_http ev s r new_rw = (s', Some w).
Proof.
  intros H. destruct (write_answer o (handle_answer _ _ _ _ _ H)) as (w & Hw & _). exists w. unfold serve_http. by rewrite H, Hw.
Qed.
Lemma authenticate_iff cfg l s ev c q r : history cfg l s -> config_texts cfg -> token_call ev s c q r ->
  (exists t, client_authenticate c (connected ev s) q = inl t) <-> (exists s' t, handle ev s r = Done s' (OToken t)).
Proof.
  intros H Hc Hq. split.
  - intros [t Ht]. destruct (serve_http ev s r new_rw) as [s' [w|]] eqn:E.
    + destruct (c55_authenticate cfg l s ev c q r s' w H Hc Hq E) as [(t1 & t' & Hh & _)|(e & e' & _ & Ha & _)].
      * by exists s', t1.
      * rewrite Ht in Ha. discriminate.
    + destruct Hq as (Hb & _). rewrite (c55_panic s ev c q r Hb) in Ht; [discriminate|by rewrite E].
  - intros (s' & t & Hh). destruct (serve_done _ _ _ _ _ Hh) as [w Hw].
    destruct (c55_authenticate cfg l s ev c q r s' w H Hc Hq Hw) as [(t1 & t' & _ & Ha & _)|(e & e' & Hh' & _)].
    + by exists t'.
    + rewrite Hh in Hh'. discriminate.
Qed.

Lemma token_call_complete ev s c q r : token_call ev s c q r -> In (tq_grant_type q) grant_types -> complete_token_request r.
Proof.
  intros (Hb & Hl & Hq & Hlim & _) Hg. destruct (token_call_fields _ _ _ _ Hl Hq Hb Hlim) as (He & Hp & _ & Hgt & _).
  split; [done|]. split; [done|]. by rewrite Hgt.
Qed.
Lemma token_call_client ev s c q r : token_call ev s c q r -> forall id,
  from_client s r id <-> (id = tq_client_id q /\ authenticates s (tq_client_id q) (tq_client_secret q)).
Proof.
  intros (Hb & Hl & Hq & Hlim & _) id. destruct (token_call_fields _ _ _ _ Hl Hq Hb Hlim) as (_ & _ & Hcc & _).
  unfold from_client. rewrite Hcc. split.
  - by intros (secret & [= <- <-] & Ha).
  - intros [-> Ha]. eauto.
Qed.
Lemma token_call_authenticated ev s c q r s' t : token_call ev s c q r -> handle ev s r = Done s' (OToken t) ->
  authenticates s (tq_client_id q) (tq_client_secret q).
Proof.
  intros Hq Hh. destruct (c38_success ev s r s' (OToken t) Hh) as [id Hid].
  - left. destruct Hq as (Hb & Hl & _). exact (leads_endpoint _ _ _ _ _ _ Hl Hb).
  - by left.
  - by apply (token_call_client ev s c q r Hq) in Hid as [_ ?].
Qed.
Lemma covers_items a b b' : items b = items b' -> covers a b <-> covers a b'.
Proof. intros H. unfold covers. by rewrite H. Qed.

Lemma grant_iff cfg l s ev c q r (P : Prop) : history cfg l s -> config_texts cfg -> token_call ev s c q r ->
  In (tq_grant_type q) grant_types ->
  (complete_token_request r -> from_client s r (tq_client_id q) -> (exists s' t, handle ev s r = Done s' (OToken t)) <-> P) ->
  (exists t, client_authenticate c (connected ev s) q = inl t) <->
  authenticates s (tq_client_id q) (tq_client_secret q) /\ P.
Proof.
  intros H Hc Hq Hg HP. rewrite (authenticate_iff cfg l s ev c q r H Hc Hq). pose proof (token_call_complete _ _ _ _ _ Hq Hg) as Hcomp.
  split.
  - intros (s' & t & Hh). pose proof (token_call_authenticated _ _ _ _ _ _ _ Hq Hh) as Ha. split; [done|].
    apply HP; [done| |by exists s', t]. by apply (token_call_client ev s c q r Hq).
  - intros [Ha Hp]. apply HP; [done| |done]. by apply (token_call_client ev s c q r Hq).
Qed.

Lemma c55_password : forall cfg l s ev c q r, history cfg l s -> config_texts cfg -> token_call ev s c q r ->
  tq_grant_type q = "password" ->
  (exists t, client_authenticate c (connected ev s) q = inl t) <->
  authenticates s (tq_client_id q) (tq_client_secret q) /\
  password_of s (tq_username q) (tq_password q) /\ covers (cfg_allowed_scope cfg) (tq_scope q) /\ enough_random ev s 2.
Proof.
  intros cfg l s ev c q r H Hc Hq Hg. apply (grant_iff cfg l s ev c q r); try done; [rewrite Hg; cbn; tauto|].
  intros Hcomp Hf. destruct Hq as (Hb & Hl & Hq & Hlim & _).
  destruct (token_call_fields _ _ _ _ Hl Hq Hb Hlim) as (_ & _ & _ & Hgt & Hu & Hp & _ & _ & _ & Hsc).
  rewrite (c59_password ev s r _ Hcomp Hf) by congruence. rewrite Hu, Hp, (covers_items _ _ _ Hsc), (history_config _ _ _ H). done.
Qed.
Lemma c55_client_credentials : forall cfg l s ev c q r, history cfg l s -> config_texts cfg -> token_call ev s c q r ->
  tq_grant_type q = "client_credentials" ->
  (exists t, client_authenticate c (connected ev s) q = inl t) <->
  authenticates s (tq_client_id q) (tq_client_secret q) /\
  (exists cl, sv_clients s !! tq_client_id q = Some cl /\ en_confidential cl = true) /\
  covers (cfg_allowed_scope cfg) (tq_scope q) /\ enough_random ev s 2.
Proof.
  intros cfg l s ev c q r H Hc Hq Hg. apply (grant_iff cfg l s ev c q r); try done; [rewrite Hg; cbn; tauto|].
  intros Hcomp Hf. destruct Hq as (Hb & Hl & Hq & Hlim & _).
  destruct (token_call_fields _ _ _ _ Hl Hq Hb Hlim) as (_ & _ & _ & Hgt & _ & _ & _ & _ & _ & Hsc).
  rewrite (c59_client_credentials ev s r _ Hcomp Hf) by congruence. rewrite (covers_items _ _ _ Hsc), (history_config _ _ _ H). done.
Qed.
Lemma c55_code : forall cfg l s ev c q r, history cfg l s -> config_texts cfg -> token_call ev s c q r ->
  tq_grant_type q = "authorization_code" ->
  (exists t, client_authenticate c (connected ev s) q = inl t) <->
  authenticates s (tq_client_id q) (tq_client_secret q) /\
  (exists d, auth_code s (tq_code q) d /\ cd_used d = false /\ (ev_now_check ev <= cd_expires_at d)%Z /\
     cd_client_id d = tq_client_id q /\ cd_redirect_uri d = tq_redirect_uri q) /\ enough_random ev s 2.
Proof.
  intros cfg l s ev c q r H Hc Hq Hg. apply (grant_iff cfg l s ev c q r); try done; [rewrite Hg; cbn; tauto|].
  intros Hcomp Hf. destruct Hq as (Hb & Hl & Hq & Hlim & _).
  destruct (token_call_fields _ _ _ _ Hl Hq Hb Hlim) as (_ & _ & _ & Hgt & _ & _ & _ & Hcode & Hru & _).
  rewrite (c59_code ev s r _ Hcomp Hf) by congruence. rewrite Hcode, Hru.
  split; intros [(d & H1 & H2 & H3 & H4 & H5) Hr]; (split; [|done]); exists d; split_and!; try done; congruence.
Qed.
Lemma c55_refresh : forall cfg l s ev c q r, history cfg l s -> config_texts cfg -> token_call ev s c q r ->
  tq_grant_type q = "refresh_token" ->
  (exists t, client_authenticate c (connected ev s) q = inl t) <->
  authenticates s (tq_client_id q) (tq_client_secret q) /\
  (exists d, refresh_token s (tq_refresh_token q) d /\ (ev_now_check ev <= cd_expires_at d)%Z /\
     cd_client_id d = tq_client_id q /\ covers (cd_scope d) (tq_scope q)) /\ enough_random ev s 2.
Proof.
  intros cfg l s ev c q r H Hc Hq Hg. apply (grant_iff cfg l s ev c q r); try done; [rewrite Hg; cbn; tauto|].
  intros Hcomp Hf. destruct Hq as (Hb & Hl & Hq & Hlim & _).
  destruct (token_call_fields _ _ _ _ Hl Hq Hb Hlim) as (_ & _ & _ & Hgt & _ & _ & Hrt & _ & _ & Hsc).
  rewrite (c59_refresh ev s r _ Hcomp Hf) by congruence. rewrite Hrt.
  split; intros [(d & H1 & H2 & H3 & H4) Hr]; (split; [|done]); exists d; (split_and!; try done); by apply (covers_items _ _ _ Hsc).
Qed.
Lemma c55_other : forall cfg l s ev c q r t, history cfg l s -> config_texts cfg -> token_call ev s c q r ->
  client_authenticate c (connected ev s) q = inl t -> In (tq_grant_type q) grant_types.
Proof.
  intros cfg l s ev c q r t H Hc Hq Ht. destruct (proj1 (authenticate_iff cfg l s ev c q r H Hc Hq)) as (s' & t' & Hh); [by exists t|].
  pose proof Hq as (Hb & Hl & Hq' & Hlim & _).
  destruct (token_call_fields _ _ _ _ Hl Hq' Hb Hlim) as (He & _ & _ & <- & _).
  rewrite endpoint_token in He. apply handled_of in Hh. inversion Hh; subst;
   try (match goal with H : at_authorize _ _ _ _ |- _ => destruct H as (Hx & _); rewrite Hx in He; discriminate end);
   match goal with H : at_token _ _ _ _, G : tq_grant_type _ = _ |- _ => 
     destruct H as (_ & Hp & _); apply GrantProofs.parse_token_inl in Hp as (_ & _ & <- & _); rewrite G; cbn; tauto end.
Qed.

(** The access token is usable at once. *)
Lemma c55_usable : forall cfg l s ev c q r t, history cfg l s -> config_texts cfg -> token_call ev s c q r ->
  client_authenticate c (connected ev s) q = inl t -> (0 <= cfg_access_lifespan cfg)%Z ->
  forall r' required now w, bearer r' (tr_access_token t) -> covers (tr_scope t) required ->
    (now <= ev_now_access ev + tr_expires_in t * second)%Z -> unsent w ->
    authorize now (fst (serve_http ev s r new_rw)) r' required w = Some (true, w).
Proof.
  intros cfg l s ev c q r t H Hc Hq Ht Hpos r' required now w Hb Hcov Hn Hw.
  destruct (proj1 (authenticate_iff cfg l s ev c q r H Hc Hq)) as (s' & t0 & Hh); [by exists t|].
  destruct (serve_done _ _ _ _ _ Hh) as [w' Hs]. rewrite Hs. cbn [fst].
  destruct (c55_authenticate cfg l s ev c q r s' w' H Hc Hq Hs) as [(t1 & t' & Hh' & Ha & Hsame)|(e & e' & Hh' & _)].
  2:{ rewrite Hh in Hh'. discriminate. }
  rewrite Hh in Hh'. injection Hh' as <-. rewrite Ht in Ha. injection Ha as <-.
  destruct Hsame as (_ & E1 & E2 & _ & E3 & _). rewrite E1 in Hb. rewrite E2 in Hn.
  eapply (c30_accepted ev s r s' t0 s'); try done.
  - by rewrite (history_config _ _ _ H).
  - unfold covers in *. by rewrite <- E3.
Qed.

(** ** Introspection and revocation *)
Lemma c55_active : forall cfg l s ev c q r x, history cfg l s -> config_texts cfg -> credential_texts s ->
  introspection_call ev s c q r -> client_introspect c (connected ev s) q = inl x -> ir_active x = true ->
  authenticates s (lq_client_id q) (lq_client_secret q) /\
  exists d, cd_client_id d = lq_client_id q /\ ir_client_id x = lq_client_id q /\ ir_username x = cd_username d /\
    items (ir_scope x) = items (cd_scope d) /\
    (ir_expires_at x * 1000000000 <= cd_expires_at d < (ir_expires_at x + 1) * 1000000000)%Z /\
    ((ir_token_type x = "access_token" /\ access_token s (lq_token q) d) \/
     (ir_token_type x = "refresh_token" /\ refresh_token s (lq_token q) d)).
Proof.
  intros cfg l s ev c q r x H Hc Hcr Hq Hx Hact.
  destruct (serve_http ev s r new_rw) as [s' [w|]] eqn:E.
  2:{ destruct Hq as (Hb & _). unfold client_introspect, connected in Hx. rewrite Hb, E in Hx. discriminate. }
  destruct (c55_introspect cfg l s ev c q r s' w H Hc Hcr Hq E) as [(x0 & x' & Hh & Ha & Hsame)|(e & e' & _ & Ha & _)].
  2:{ rewrite Hx in Ha. discriminate. }
  rewrite Hx in Ha. injection Ha as <-. destruct Hsame as (E1 & E2 & E3 & E4 & E5 & E6 & _).
  pose proof Hq as (Hb & Hl & Hq' & Hlim & _).
  destruct (lookup_call_fields _ _ _ _ Hl Hq' Hb Hlim) as (_ & _ & Hcc & Htok).
  apply c47_discloses in Hh as [->|(d & kind & (sec & Hf & Hau) & (_ & K1 & K2 & K3 & K4 & K5 & _) & Hk)]; [by rewrite E1 in Hact|].
  rewrite Hcc in Hf. injection Hf as Hid <-. rewrite <- Hid in Hau. split; [done|].
  exists d. rewrite E2, E3, E4, E5, E6, K1, K2, K3, K4, <- Hid. split_and!; try done; try lia.
  rewrite <- Htok. destruct Hk as [[-> Hk]|[-> Hk]]; auto.
Qed.
Lemma c55_revoked : forall s ev c q r sg, revocation_call ev s c q r ->
  authenticates s (lq_client_id q) (lq_client_secret q) -> names (server_secret s) (lq_token q) sg ->
  (forall a, sv_access s !! sg = Some a -> cd_client_id a = lq_client_id q) ->
  (forall f, sv_refresh s !! sg = Some f -> cd_client_id f = lq_client_id q) ->
  client_revoke c (connected ev s) q = None.
Proof.
  intros s ev c q r sg Hq Ha Hn H1 H2. pose proof Hq as (Hb & Hl & Hq' & Hlim & _).
  destruct (lookup_call_fields _ _ _ _ Hl Hq' Hb Hlim) as (He & Hcl & Hcc & Htok).
  destruct (c46_own ev s r (lq_client_id q) sg) as (s' & Hh & _); try done.
  - eexists. by rewrite Hcc.
  - by rewrite Htok.
  - destruct (serve_done _ _ _ _ _ Hh) as [w Hw].
    destruct (c55_revoke s ev c q r s' w Hq Hw) as [[_ ?]|(e & e' & Hh' & _)]; [done|]. rewrite Hh in Hh'. discriminate.
Qed.
Lemma c55_revocation_permanent : forall s ev c q r sg l s'', revocation_call ev s c q r ->
  client_revoke c (connected ev s) q = None -> names (server_secret s) (lq_token q) sg ->
  run (fst (serve_http ev s r new_rw)) l s'' ->
  (forall x, In x l -> ~ issues_access (server_secret s) x sg /\ ~ issues_refresh (server_secret s) x sg) ->
  authenticates s (lq_client_id q) (lq_client_secret q) /\
  forall now r' str required w, unsent w -> bearer r' str -> names (server_secret s) str sg ->
     exists w', authorize now s'' r' required w = Some (false, w').
Proof.
  intros s ev c q r sg l s'' Hq Hr Hn Hrun Hl'. pose proof Hq as (Hb & Hl & Hq' & Hlim & _).
  destruct (lookup_call_fields _ _ _ _ Hl Hq' Hb Hlim) as (He & Hcl & Hcc & Htok).
  destruct (serve_http ev s r new_rw) as [s' [w|]] eqn:E.
  2:{ unfold client_revoke, connected in Hr. rewrite Hb, E in Hr. discriminate. }
  destruct (c55_revoke s ev c q r s' w Hq E) as [[Hh _]|(e & e' & _ & Ha & _)].
  2:{ rewrite Hr in Ha. discriminate. }
  split.
  - destruct (c38_success ev s r s' ORevoked Hh) as (id & sec & Hid & Hau); [auto|by left|]. rewrite Hcc in Hid. by injection Hid as <- <-.
  - cbn [fst] in Hrun. rewrite <- Htok in Hn.
    destruct (c45_revoked ev s r s' sg l s'' Hh Hn Hrun Hl') as (H1 & _). exact H1.
Qed.
