(** The authorization code flow from end to end. *)
From Verif.Model Require Import Server History Client.
From Verif.Spec Require Import TokenSpec ScopeSpec WireSpec RequestSpec ServerSpec HistorySpec ClientSpec FlowSpec.
From Verif.Proof Require Import StrFacts Redirect ServerFacts Steps RequestProofs GrantProofs ServerProofs EffectProofs
  HistoryFacts HistoryProofs ClientProofs.

#[local] Opaque handle parse_token.

Section untouched.
Variables (secret : string) (l : list step) (sg : string).
Hypothesis HU : untouched secret l sg.

Lemma untouched_served y ev r o : In y l -> served y ev r o ->
  (forall k, ~ names secret (body_param r k) sg) /\
  ~ hands_out_access secret o sg /\ ~ hands_out_refresh secret o sg /\ ~ hands_out_code secret o sg.
Proof. intros Hy [H1 H2]. destruct (HU y ev r Hy H1) as [H3 H4]. split; [exact H3|]. by apply H4. Qed.
Lemma untouched_access_new y : In y l -> ~ issues_access secret y sg.
Proof. intros Hy (ev & r & o & Hs & Ho). by apply (untouched_served _ _ _ _ Hy Hs) in Ho. Qed.
Lemma untouched_refresh_new y : In y l -> ~ issues_refresh secret y sg.
Proof. intros Hy (ev & r & o & Hs & Ho). by apply (untouched_served _ _ _ _ Hy Hs) in Ho. Qed.
Lemma untouched_code_new y : In y l -> ~ issues_code secret y sg.
Proof. intros Hy (ev & r & o & Hs & Ho). by apply (untouched_served _ _ _ _ Hy Hs) in Ho. Qed.
Lemma untouched_code_unused y : In y l -> ~ redeems_code secret y sg.
Proof. intros Hy (ev & r & t & Hs & (_ & _ & Hn)). by apply (untouched_served _ _ _ _ Hy Hs) in Hn. Qed.
Lemma untouched_code_refused y : In y l -> ~ refused_as_unknown secret y sg.
Proof. intros Hy (ev & r & t & Hs & (_ & _ & Hn) & _). by apply (untouched_served _ _ _ _ Hy Hs) in Hn. Qed.
Lemma untouched_revokes y : In y l -> ~ revokes secret y sg.
Proof. intros Hy (ev & r & Hs & _ & Hn). by apply (untouched_served _ _ _ _ Hy Hs) in Hn. Qed.
Lemma untouched_redeems y : In y l -> ~ redeems_refresh secret y sg.
Proof. intros Hy (ev & r & t & Hs & (_ & _ & Hn)). by apply (untouched_served _ _ _ _ Hy Hs) in Hn. Qed.

End untouched.

Lemma redeemed_code secret s ev r k : redeems_code secret (step_of s (Serve ev r)) k -> presents_code secret r k.
Proof. intros (ev' & r' & t & [E _] & Hn). cbn in E. injection E as <- <-. exact Hn. Qed.

Lemma untouched_ends_access secret l sg s ev r y : untouched secret l sg ->
  (forall k, presents_code secret r k -> untouched secret l k) -> In y l ->
  ~ ends_access secret (step_of s (Serve ev r)) y sg.
Proof.
  intros HU HC Hy [H|[(k & Hk & Hr)|(ev0 & r0 & e & ? & ? & ? & ? & Hs & _ & Hn & _)]].
  - exact (untouched_revokes _ _ _ HU y Hy H).
  - apply redeemed_code in Hk. exact (untouched_code_refused _ _ _ (HC k Hk) y Hy Hr).
  - by apply (untouched_served _ _ _ HU _ _ _ _ Hy Hs) in Hn.
Qed.
Lemma untouched_ends_refresh secret l sg s ev r y : untouched secret l sg ->
  (forall k, presents_code secret r k -> untouched secret l k) -> In y l ->
  ~ ends_refresh secret (step_of s (Serve ev r)) y sg.
Proof.
  intros HU HC Hy [H|[H|(k & Hk & Hr)]].
  - exact (untouched_revokes _ _ _ HU y Hy H).
  - exact (untouched_redeems _ _ _ HU y Hy H).
  - apply redeemed_code in Hk. exact (untouched_code_refused _ _ _ (HC k Hk) y Hy Hr).
Qed.

(** What Authenticate returned is what the server answered. *)
Lemma authenticated cfg l s ev c q r t : history cfg l s -> config_texts cfg -> token_call ev s c q r ->
  client_authenticate c (connected ev s) q = inl t ->
  exists t0, handle ev s r = Done (fst (serve_http ev s r new_rw)) (OToken t0) /\ same_token t0 t.
Proof.
  intros H Hc Hq Ht. destruct (proj1 (authenticate_iff cfg l s ev c q r H Hc Hq)) as (s' & t0 & Hh); [by exists t|].
  destruct (serve_done _ _ _ _ _ Hh) as [w' Hs]. rewrite Hs. cbn [fst].
  destruct (c55_authenticate cfg l s ev c q r s' w' H Hc Hq Hs) as [(t1 & t' & Hh' & Ha & Hsame)|(e & e' & Hh' & _)].
  2:{ rewrite Hh in Hh'. discriminate. }
  rewrite Hh in Hh'. injection Hh' as <-. rewrite Ht in Ha. injection Ha as <-. by exists t0.
Qed.
Lemma call_code ev s c q r : token_call ev s c q r -> body_param r "code" = tq_code q.
Proof. intros (Hb & Hl & Hq & Hlim & _). by destruct (token_call_fields _ _ _ _ Hl Hq Hb Hlim) as (_ & _ & _ & _ & _ & _ & _ & ? & _). Qed.
Lemma call_refresh ev s c q r : token_call ev s c q r -> body_param r "refresh_token" = tq_refresh_token q.
Proof. intros (Hb & Hl & Hq & Hlim & _). by destruct (token_call_fields _ _ _ _ Hl Hq Hb Hlim) as (_ & _ & _ & _ & _ & _ & ? & _). Qed.
Lemma call_grant ev s c q r : token_call ev s c q r -> body_param r "grant_type" = tq_grant_type q.
Proof. intros (Hb & Hl & Hq & Hlim & _). by destruct (token_call_fields _ _ _ _ Hl Hq Hb Hlim) as (_ & _ & _ & ? & _). Qed.
Lemma call_step cfg l s ev r s' o : history cfg l s -> handle ev s r = Done s' o -> history cfg (step_of s (Serve ev r) :: l) s'.
Proof. intros H Hh. replace s' with (fst (do_op s (Serve ev r))) by (rewrite step_serve, Hh; done). by constructor. Qed.

Lemma c70_access : forall cfg l s ev c q r t sg, history cfg l s -> config_texts cfg -> token_call ev s c q r ->
  client_authenticate c (connected ev s) q = inl t -> names (cfg_secret cfg) (tr_access_token t) sg ->
  forall l' s', run (fst (serve_http ev s r new_rw)) l' s' -> untouched (cfg_secret cfg) l' sg ->
  (forall k, names (cfg_secret cfg) (tq_code q) k -> untouched (cfg_secret cfg) l' k) ->
  forall r' required now w, (0 <= cfg_access_lifespan cfg)%Z -> bearer r' (tr_access_token t) -> covers (tr_scope t) required ->
  (now <= ev_now_access ev + tr_expires_in t * second)%Z -> authorize now s' r' required w = Some (true, w).
Proof.
  intros cfg l s ev c q r t sg H Hc Hq Ht Hn l' s' Hrun HU HC r' required now w Hpos Hb Hcov Hle.
  destruct (authenticated cfg l s ev c q r t H Hc Hq Ht) as (t0 & Hh & (_ & E1 & E2 & _ & E3 & _)).
  assert (HC' : forall k, presents_code (cfg_secret cfg) r k -> untouched (cfg_secret cfg) l' k).
  { intros k (_ & _ & Hk). rewrite (call_code _ _ _ _ _ Hq) in Hk. by apply HC. }
  rewrite E1 in Hn, Hb. rewrite E2 in Hle.
  destruct (c30_history cfg l s ev r _ t0 sg l' s' r' required now w H Hh Hn Hrun) as [w' Hw]; try done.
  - intros y Hy. split; [exact (untouched_access_new _ _ _ HU y Hy)|exact (untouched_ends_access _ _ _ s ev r y HU HC' Hy)].
  - unfold covers in *. by rewrite <- E3.
  - rewrite Hw. f_equal. f_equal. exact (c27_silent _ _ _ _ _ _ Hw).
Qed.

Lemma c70_refresh : forall cfg l s ev c q r t sg, history cfg l s -> config_texts cfg -> token_call ev s c q r ->
  client_authenticate c (connected ev s) q = inl t -> names (cfg_secret cfg) (tr_refresh_token t) sg ->
  (tq_grant_type q = "refresh_token" -> ~ names (cfg_secret cfg) (tq_refresh_token q) sg) ->
  forall l' s', run (fst (serve_http ev s r new_rw)) l' s' -> untouched (cfg_secret cfg) l' sg ->
  (forall k, names (cfg_secret cfg) (tq_code q) k -> untouched (cfg_secret cfg) l' k) ->
  forall ev' c' q' r', token_call ev' s' c' q' r' -> tq_grant_type q' = "refresh_token" ->
  tq_refresh_token q' = tr_refresh_token t -> tq_client_id q' = tq_client_id q ->
  authenticates s' (tq_client_id q') (tq_client_secret q') -> covers (tr_scope t) (tq_scope q') ->
  (ev_now_check ev' <= ev_now_refresh ev + cfg_refresh_lifespan cfg)%Z -> enough_random ev' s' 2 ->
  exists t', client_authenticate c' (connected ev' s') q' = inl t'.
Proof.
  intros cfg l s ev c q r t sg H Hc Hq Ht Hn Hno l' s' Hrun HU HC ev' c' q' r' Hq' Hg Hrt Hid Hau Hcov Hle Hrand.
  destruct (authenticated cfg l s ev c q r t H Hc Hq Ht) as (t0 & Hh & (_ & _ & _ & E1 & E3 & _)).
  assert (HC' : forall k, presents_code (cfg_secret cfg) r k -> untouched (cfg_secret cfg) l' k).
  { intros k (_ & _ & Hk). rewrite (call_code _ _ _ _ _ Hq) in Hk. by apply HC. }
  rewrite <- (call_refresh _ _ _ _ _ Hq), <- (call_grant _ _ _ _ _ Hq) in Hno.
  pose proof (call_step cfg l s ev r _ _ H Hh) as Hx. pose proof (run_app _ _ _ _ _ Hx Hrun) as Hall.
  apply (authenticate_iff cfg _ s' ev' c' q' r' Hall Hc Hq').
  pose proof Hq' as (Hb & Hl & He' & Hlim & _). destruct (token_call_fields _ _ _ _ Hl He' Hb Hlim) as (Hend & _ & Hcc & Hgt & _ & _ & Hbr & _ & _ & Hsc).
  assert (Hcomp : complete_token_request r') by (apply (token_call_complete _ _ _ _ _ Hq'); rewrite Hg; cbn; tauto).
  apply (c60_refresh cfg _ s' ev' r' sg (tq_client_id q') Hall Hcomp).
  - exists (tq_client_secret q'). done.
  - split; [done|]. split; [congruence|]. rewrite Hbr, Hrt. exact Hn.
  - exact Hrand.
  - exists (step_of s (Serve ev r)), l', ev, r, t0. split; [|split; [|split; [|split; [|split]]]].
    + exists l. split; [done|]. split; [split|].
      * exists ev, r, (OToken t0). split; [apply served_step; eauto|]. exists t0. split; [done|]. by rewrite <- E1.
      * intros (ev1 & r1 & t1 & [E _] & (_ & Hg1 & Hn1)). cbn in E. injection E as <- <-. by apply Hno.
      * intros y Hy [Hi _]. exact (untouched_refresh_new _ _ _ HU y Hy Hi).
    + apply served_step. eauto.
    + rewrite Hid. right. pose proof Hq as (Hb0 & Hl0 & He0 & Hlim0 & _).
      destruct (token_call_fields _ _ _ _ Hl0 He0 Hb0 Hlim0) as (Hend0 & _ & Hcc0 & _). rewrite Hcc0. split; [|done].
      rewrite endpoint_token in Hend0. rewrite endpoint_authorize. congruence.
    + unfold covers in *. by rewrite Hsc, <- E3.
    + done.
    + intros y Hy. exact (untouched_ends_refresh _ _ _ s ev r y HU HC' Hy).
Qed.

(** The code arrives at the redirect URI. *)
Lemma code_sent ev s r s' c cl : handle ev s r = Done s' (OCode c) -> sv_clients s !! form_param r "client_id" = Some cl ->
  ascii_text (en_redirect_uri cl) -> without "#" (en_redirect_uri cl) -> en_redirect_uri cl <> "*" ->
  exists w loc u u' sg, serve_http ev s r new_rw = (s', Some w) /\ status w = 303%Z /\ header_values w "Location" = [loc] /\
    parse_request_uri (en_redirect_uri cl) = Some u /\ parse_request_uri loc = Some u' /\ same_target u u' /\ without "#" loc /\
    values_of (url_query u') "code" = values_of (url_query u) "code" ++ [cr_code c] /\
    values_of (url_query u') "state" = values_of (url_query u) "state" ++ echo (form_param r "state") /\
    names (server_secret s) (cr_code c) sg.
Proof.
  intros Hh Hcl Ha Hw Hs. pose proof (c58_code _ _ _ _ _ Hh) as (d & (sg & Hn & _) & _).
  assert (Hsec : server_secret s' = server_secret s) by (pose proof (handle_config ev s r) as Hcf; rewrite Hh in Hcf; unfold server_secret; cbn in Hcf; by rewrite Hcf).
  rewrite Hsec in Hn. unfold serve_http. rewrite Hh. apply handled_of in Hh. inversion Hh; subst.
  match goal with A : at_authorize _ _ _ _ |- _ => pose proof A as (_ & _ & _ & Hcl' & Huri);
    destruct (at_authorize_uri _ _ _ _ A) as (Hne & [u Hu] & Hc & _ & _ & Hst & _) end.
  rewrite Hc in Hcl. rewrite Hcl' in Hcl. injection Hcl as ->. rewrite Huri in Ha, Hw, Hs.
  set (cc := new_code_response (token_string k) (aq_redirect_uri req) (aq_state req)) in *.
  destruct (c16_query _ _ (code_map cc) Hu Ha Hs) as (loc & u' & J1 & J2 & J3 & (v & Hv & Hk)).
  exists (sent_redirect loc), loc, u, u', sg. split; [|split; [done|split; [apply redirect_location_header|]]].
  - unfold write_outcome, write_code_response. change (cr_redirect_uri cc) with (aq_redirect_uri req).
    rewrite (write_redirect_sent _ _ _ loc) by done. done.
  - rewrite Huri. split; [done|]. split; [done|]. split; [done|]. split; [exact (c16_no_fragment _ _ _ _ Hu Hw J1)|].
    assert (Hq : url_query u' = v) by (unfold url_query; by rewrite Hv). rewrite Hq, !Hk. split; [|split; [|done]].
    + f_equal. unfold param_values, code_map, put. destruct (seqb (cr_state cc) ""); rewrite ?lookup_insert_ne, lookup_insert by done; done.
    + f_equal. rewrite Hst. apply echo_params. apply code_map_state.
Qed.

Lemma c70_flow : forall cfg l0 s0 ev0 r0 cl,
  history cfg l0 s0 -> config_texts cfg -> (0 <= cfg_access_lifespan cfg)%Z ->
  complete_authorization s0 r0 -> rq_method r0 = "POST" -> form_param r0 "response_type" = "code" ->
  password_of s0 (body_param r0 "username") (body_param r0 "password") ->
  covers (cfg_allowed_scope cfg) (parse_scope (form_param r0 "scope")) -> enough_random ev0 s0 1 ->
  sv_clients s0 !! form_param r0 "client_id" = Some cl ->
  ascii_text (en_redirect_uri cl) -> without "#" (en_redirect_uri cl) -> en_redirect_uri cl <> "*" ->
  exists s0' w loc u u' code k,
  serve_http ev0 s0 r0 new_rw = (s0', Some w) /\ status w = 303%Z /\ header_values w "Location" = [loc] /\
  parse_request_uri (en_redirect_uri cl) = Some u /\ parse_request_uri loc = Some u' /\ same_target u u' /\ without "#" loc /\
  values_of (url_query u') "code" = values_of (url_query u) "code" ++ [code] /\
  values_of (url_query u') "state" = values_of (url_query u) "state" ++ echo (form_param r0 "state") /\
  names (cfg_secret cfg) code k /\
  forall l1 s1 ev1 c1 q1 r1, run s0' l1 s1 -> untouched (cfg_secret cfg) l1 k ->
  token_call ev1 s1 c1 q1 r1 -> tq_grant_type q1 = "authorization_code" -> tq_code q1 = code ->
  tq_client_id q1 = form_param r0 "client_id" -> tq_redirect_uri q1 = en_redirect_uri cl ->
  authenticates s1 (tq_client_id q1) (tq_client_secret q1) ->
  (ev_now_check ev1 <= ev_now_code ev0 + cfg_code_lifespan cfg)%Z -> enough_random ev1 s1 2 ->
  exists t a f, client_authenticate c1 (connected ev1 s1) q1 = inl t /\
  items (tr_scope t) = items (parse_scope (form_param r0 "scope")) /\
  names (cfg_secret cfg) (tr_access_token t) a /\ names (cfg_secret cfg) (tr_refresh_token t) f /\
  forall l2 s2, run (fst (serve_http ev1 s1 r1 new_rw)) l2 s2 -> untouched (cfg_secret cfg) l2 k ->
  (untouched (cfg_secret cfg) l2 a ->
   forall r required now w, bearer r (tr_access_token t) -> covers (tr_scope t) required ->
   (now <= ev_now_access ev1 + tr_expires_in t * second)%Z -> authorize now s2 r required w = Some (true, w)) /\
  (untouched (cfg_secret cfg) l2 f ->
   forall ev2 c2 q2 r2, token_call ev2 s2 c2 q2 r2 -> tq_grant_type q2 = "refresh_token" ->
   tq_refresh_token q2 = tr_refresh_token t -> tq_client_id q2 = tq_client_id q1 ->
   authenticates s2 (tq_client_id q2) (tq_client_secret q2) -> covers (tr_scope t) (tq_scope q2) ->
   (ev_now_check ev2 <= ev_now_refresh ev1 + cfg_refresh_lifespan cfg)%Z -> enough_random ev2 s2 2 ->
   exists t', client_authenticate c2 (connected ev2 s2) q2 = inl t').
Proof.
  intros cfg l0 s0 ev0 r0 cl H Hc Hpos Hcomp Hm Hrt Hpw Hcov Hrand Hcl Ha Hw Hs.
  destruct (proj2 (c59_authorization_code ev0 s0 r0 Hcomp Hm Hrt)) as (s0' & c & Hh).
  { split; [done|]. split; [|done]. by rewrite (history_config _ _ _ H). }
  destruct (code_sent _ _ _ _ _ _ Hh Hcl Ha Hw Hs) as (w & loc & u & u' & k & H1 & H2 & H3 & H4 & H5 & H6 & H7 & H8 & H9 & Hn).
  rewrite (history_secret _ _ _ H) in Hn.
  exists s0', w, loc, u, u', (cr_code c), k. do 10 (split; [done|]).
  intros l1 s1 ev1 c1 q1 r1 Hrun HU Hq Hg Hcode Hid Hru Hau Hle Hr1.
  pose proof (call_step cfg l0 s0 ev0 r0 _ _ H Hh) as Hx. pose proof (run_app _ _ _ _ _ Hx Hrun) as Hall.
  pose proof Hq as (Hb & Hl & He & Hlim & _).
  destruct (token_call_fields _ _ _ _ Hl He Hb Hlim) as (Hend & _ & Hcc & Hgt & _ & _ & _ & Hbc & Hbru & _).
  assert (Hct : complete_token_request r1) by (apply (token_call_complete _ _ _ _ _ Hq); rewrite Hg; cbn; tauto).
  assert (Hpres : presents_code (cfg_secret cfg) r1 k).
  { split; [done|]. split; [congruence|]. rewrite Hbc, Hcode. exact Hn. }
  assert (Hlast : last_step (fun y => issues_code (cfg_secret cfg) y k) (l1 ++ step_of s0 (Serve ev0 r0) :: l0) (step_of s0 (Serve ev0 r0)) l1).
  { exists l0. split; [done|]. split.
    - exists ev0, r0, (OCode c). split; [apply served_step; eauto|]. by exists c.
    - intros y Hy. exact (untouched_code_new _ _ _ HU y Hy). }
  assert (Hsv : served (step_of s0 (Serve ev0 r0)) ev0 r0 (OCode c)) by (apply served_step; eauto).
  assert (Huq : query_unescape (form_param r0 "redirect_uri") = Some (en_redirect_uri cl)).
  { destruct Hcomp as (_ & _ & _ & cl' & Hcl' & Hu'). rewrite Hcl in Hcl'. by injection Hcl' as <-. }
  assert (Hok : exists s' t, handle ev1 s1 r1 = Done s' (OToken t)).
  { apply (c61_code cfg _ s1 ev1 r1 k (tq_client_id q1) Hall Hct); [by exists (tq_client_secret q1)|done|done|].
    exists (step_of s0 (Serve ev0 r0)), l1, ev0, r0, c. split; [done|]. split; [done|]. split; [done|].
    split; [by rewrite Huq, Hbru, Hru|]. split; [done|]. intros y Hy. exact (untouched_code_unused _ _ _ HU y Hy). }
  destruct (proj2 (authenticate_iff cfg _ s1 ev1 c1 q1 r1 Hall Hc Hq) Hok) as [t Ht].
  destruct (authenticated cfg _ s1 ev1 c1 q1 r1 t Hall Hc Hq Ht) as (t0 & Hh1 & (T1 & T2 & T3 & T4 & T5 & T6)).
  destruct (c35_provenance cfg _ s1 ev1 r1 _ t0 k Hall Hh1 Hpres) as
    (x' & later' & ev' & r' & Hlast' & (c' & Hsv' & _) & _ & _ & Hsc & _ & _ & (a & (ka & Hka & _) & _) & (f & (kf & Hkf & _) & _)).
  destruct (last_step_fun _ _ _ _ _ _ Hlast Hlast') as [<- <-]. destruct (served_fun _ _ _ _ _ _ _ Hsv Hsv') as (<- & <- & _).
  assert (Hsec : server_secret (fst (serve_http ev1 s1 r1 new_rw)) = cfg_secret cfg).
  { pose proof (handle_config ev1 s1 r1) as Hcf. rewrite Hh1 in Hcf. unfold server_secret. cbn [res_server] in Hcf. rewrite Hcf. by rewrite (history_config _ _ _ Hall). }
  rewrite Hsec in Hka, Hkf. rewrite <- T2 in Hka. rewrite <- T4 in Hkf.
  exists t, ka, kf. split; [done|]. split; [by rewrite T5, Hsc|]. split; [done|]. split; [done|].
  intros l2 s2 Hrun2 HU2.
  assert (HC : forall k', names (cfg_secret cfg) (tq_code q1) k' -> untouched (cfg_secret cfg) l2 k').
  { intros k' Hk'. rewrite Hcode in Hk'. by rewrite <- (names_fun _ _ _ _ Hn Hk'). }
  split.
  - intros HUa r required now w' Hbr Hcv Hnow.
    exact (c70_access cfg _ s1 ev1 c1 q1 r1 t ka Hall Hc Hq Ht Hka l2 s2 Hrun2 HUa HC r required now w' Hpos Hbr Hcv Hnow).
  - intros HUf ev2 c2 q2 r2 Hq2 Hg2 Hrt2 Hid2 Hau2 Hcv2 Hle2 Hrand2.
    refine (c70_refresh cfg _ s1 ev1 c1 q1 r1 t kf Hall Hc Hq Ht Hkf _ l2 s2 Hrun2 HUf HC ev2 c2 q2 r2 Hq2 Hg2 Hrt2 Hid2 Hau2 Hcv2 Hle2 Hrand2).
    intros E. rewrite Hg in E. discriminate.
Qed.

(** ** The implicit flow *)
Lemma plain_bytes s : all_bytes plain_byte s = true -> plain_text s.
Proof. intros H a Ha. apply plain_byte_spec. rewrite all_bytes_spec in H. apply H. by apply s_in_list. Qed.
Lemma token_string_plain a : plain_text (token_string a).
Proof.
  apply plain_bytes. unfold token_string, key_string, signature_string, rawurl_encode. rewrite !all_bytes_app.
  rewrite !andb_true_iff. split_and!; try done; apply Base64Facts.encode_all_bytes; try done; vm_compute; reflexivity.
Qed.
Lemma digits_plain s : DecFacts.digits s = true -> all_bytes plain_byte s = true.
Proof.
  unfold DecFacts.digits. rewrite !all_bytes_spec. intros H a Ha. specialize (H a Ha).
  assert (HH : negb (is_digit a) || plain_byte a = true) by (clear; revert a; apply ascii_forall; vm_compute; reflexivity).
  rewrite H in HH. exact HH.
Qed.
Lemma itoa_plain z : plain_text (itoa z).
Proof.
  apply plain_bytes. destruct (DecFacts.itoa_cases z) as [(n & -> & _)|(n & -> & _)];
    destruct (DecFacts.dec_of_N_spec n) as (Hd & _); apply digits_plain in Hd; [done|]. cbn [all_bytes]. by rewrite Hd.
Qed.

Lemma c70_implicit : forall cfg l0 s0 ev0 r0 cl,
  history cfg l0 s0 -> (0 <= cfg_access_lifespan cfg)%Z ->
  complete_authorization s0 r0 -> rq_method r0 = "POST" -> form_param r0 "response_type" = "token" ->
  password_of s0 (body_param r0 "username") (body_param r0 "password") ->
  covers (cfg_allowed_scope cfg) (parse_scope (form_param r0 "scope")) -> enough_random ev0 s0 1 ->
  sv_clients s0 !! form_param r0 "client_id" = Some cl -> without "#" (en_redirect_uri cl) ->
  exists s0' w loc v token seconds a,
  serve_http ev0 s0 r0 new_rw = (s0', Some w) /\ status w = 303%Z /\ header_values w "Location" = [loc] /\
  parse_query (fragment_of loc) = (v, true) /\
  values_of v "access_token" = [token] /\ values_of v "token_type" = ["bearer"] /\
  values_of v "expires_in" = [itoa seconds] /\ values_of v "refresh_token" = [] /\
  values_of v "state" = map percent_encoded (echo (form_param r0 "state")) /\
  names (cfg_secret cfg) token a /\
  forall l1 s1, run s0' l1 s1 -> untouched (cfg_secret cfg) l1 a ->
  forall r required now w, bearer r token -> covers (parse_scope (form_param r0 "scope")) required ->
  (now <= ev_now_access ev0 + seconds * second)%Z -> authorize now s1 r required w = Some (true, w).
Proof.
  intros cfg l0 s0 ev0 r0 cl H Hpos Hcomp Hm Hrt Hpw Hcov Hrand Hcl Hw.
  destruct (proj2 (c59_implicit ev0 s0 r0 Hcomp Hm Hrt)) as (s0' & t & Hh).
  { split; [done|]. split; [|done]. by rewrite (history_config _ _ _ H). }
  pose proof (c30_history cfg l0 s0 ev0 r0 s0' t) as Huse.
  assert (Hno : forall k, ~ presents_code (cfg_secret cfg) r0 k).
  { intros k (He & _). destruct Hcomp as (He' & _). rewrite endpoint_token in He. rewrite endpoint_authorize in He'. congruence. }
  pose proof Hh as Hd. apply handled_of in Hd. inversion Hd; subst;
   try (match goal with A : at_token _ _ _ _ |- _ => destruct A as (Hx & _); destruct Hcomp as (He' & _);
     rewrite endpoint_authorize in He'; rewrite Hx in He'; discriminate end).
  match goal with A : at_authorize _ _ _ _ |- _ => pose proof A as (_ & _ & _ & Hcl' & Huri);
    destruct (at_authorize_uri _ _ _ _ A) as (Hne & [u Hu] & Hc & _ & _ & Hst & Hsc) end.
  rewrite Hc in Hcl. rewrite Hcl' in Hcl. injection Hcl as ->. rewrite Huri in Hw.
  match goal with A : issued_access _ _ _ _ _ _ _ _ |- _ => destruct A as (a & src & Hgen & -> & Hs') end.
  match type of Hh with _ = Done _ (OToken ?x) => set (tt := x) in * end.
  destruct (c17_exact _ _ (token_map tt) Hu Hw) as (loc & v & J1 & J2 & J3 & _).
  exists s0', (sent_redirect loc), loc, v, (token_string a), (tr_expires_in tt), (signature_string a).
  assert (Hval : forall k x, plain_text k -> plain_text x -> token_map tt !! k = Some x -> values_of v k = [x]).
  { intros k x Hk Hx Hm'. apply percent_encoded_plain in Hk, Hx. rewrite <- Hk at 1. rewrite J3. unfold param_values.
    rewrite Hm'. cbn [map]. by rewrite Hx. }
  assert (Hmap : forall k, k <> "state" -> k <> "scope" -> k <> "refresh_token" ->
    token_map tt !! k = (<["expires_in" := itoa (tr_expires_in tt)]> (<["access_token" := token_string a]> (<["token_type" := "bearer"]> ∅)) : gmap string string) !! k).
  { intros k K1 K2 K3. unfold token_map, put. 
    change (tr_refresh_token tt) with "". change (seqb "" "") with true. cbv iota zeta.
    destruct (seqb (tr_state tt) ""), (tr_scope tt); rewrite ?(lookup_insert_ne _ "state"), ?(lookup_insert_ne _ "scope") by done; done. }
  split. { unfold serve_http. rewrite Hh. unfold write_outcome, write_token_response.
    change (tr_redirect_uri tt) with (aq_redirect_uri req). rewrite (proj2 (seqb_false _ _) Hne). cbn [negb].
    rewrite (write_redirect_sent _ _ _ loc) by done. done. }
  split; [done|]. split; [apply redirect_location_header|]. split; [done|].
  split. { apply Hval; [apply plain_bytes; reflexivity|apply token_string_plain|].
    rewrite Hmap by done. rewrite lookup_insert_ne, lookup_insert by done. done. }
  split. { apply Hval; [apply plain_bytes; reflexivity|apply plain_bytes; reflexivity|].
    rewrite Hmap by done. rewrite !lookup_insert_ne, lookup_insert by done. done. }
  split. { apply Hval; [apply plain_bytes; reflexivity|apply itoa_plain|].
    rewrite Hmap by done. rewrite lookup_insert by done. done. }
  split. { assert (Hk : percent_encoded "refresh_token" = "refresh_token") by reflexivity. rewrite <- Hk, J3. unfold param_values.
    by rewrite no_refresh_in_token_map. }
  split. { assert (Hk : percent_encoded "state" = "state") by reflexivity. rewrite <- Hk at 1. rewrite J3, Hst. f_equal. apply echo_params. apply token_map_state. }
  assert (Hn : names (cfg_secret cfg) (token_string a) (signature_string a)).
  { rewrite <- (history_secret _ _ _ H). by eapply generated_names. }
  split; [exact Hn|]. intros l1 s1 Hrun HU r required now w Hb Hcv Hnow.
  destruct (Huse (signature_string a) l1 s1 r required now w H Hh Hn Hrun) as [w' Hw']; try done.
  - intros y Hy. split; [exact (untouched_access_new _ _ _ HU y Hy)|]. apply (untouched_ends_access _ l1 _ s0 ev0 r0 y HU); [|done].
    intros k Hk. by destruct (Hno k).
  - change (tr_scope tt) with (aq_scope req). by rewrite Hsc.
  - rewrite Hw'. f_equal. f_equal. exact (c27_silent _ _ _ _ _ _ Hw').
Qed.
