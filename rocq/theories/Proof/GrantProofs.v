(** Proofs about the effect of single requests. *)
From Verif.Model Require Import Server.
From Verif.Spec Require Import TokenSpec ScopeSpec WireSpec RequestSpec ServerSpec.
From Verif.Proof Require Import StrFacts Base64Facts HsFacts TokenProofs UrlFacts UrlParse JsonFacts ScopeFacts
  ScopeProofs WireFacts WireProofs Redirect ServerFacts Steps RequestProofs RequestParse ServerProofs.

(** ** Parsed requests in terms of the request *)
Lemma parse_token_inl r q : parse_token_request r = inl q ->
  rq_method r = "POST" /\ client_credentials r = (tq_client_id q, tq_client_secret q) /\
  tq_grant_type q = body_param r "grant_type" /\ tq_username q = body_param r "username" /\
  tq_password q = body_param r "password" /\ tq_refresh_token q = body_param r "refresh_token" /\
  tq_code q = body_param r "code" /\ tq_scope q = parse_scope (body_param r "scope") /\
  query_unescape (body_param r "redirect_uri") = Some (tq_redirect_uri q) /\
  tq_client_id q <> "" /\ tq_grant_type q <> "".
Proof.
  unfold parse_token_request, client_credentials, body_param. intros H. cbv zeta in H.
  destruct (seqb (rq_method r) "POST") eqn:Em; [|done]. cbn [negb] in H.
  destruct (parse_form r) as [f|]; [|done].
  destruct (seqb (vget (f_post f) "grant_type") "") eqn:Eg; [done|].
  destruct (basic_auth r) as [[id sec]|].
  - destruct (seqb id "") eqn:Ei; [done|].
    destruct (query_unescape (vget (f_post f) "redirect_uri")) as [x|] eqn:Eq; [|done].
    destruct (negb _); [done|]. injection H as <-. cbn. apply seqb_true in Em. apply seqb_false in Eg, Ei. done.
  - destruct (seqb (vget (f_post f) "client_id") "") eqn:Ei; [done|].
    destruct (query_unescape (vget (f_post f) "redirect_uri")) as [x|] eqn:Eq; [|done].
    destruct (negb _); [done|]. injection H as <-. cbn. apply seqb_true in Em. apply seqb_false in Eg, Ei. done.
Qed.
Lemma parse_lookup_inl r q : parse_lookup_request r = inl q ->
  rq_method r = "POST" /\ basic_auth r = Some (lq_client_id q, lq_client_secret q) /\
  client_credentials r = (lq_client_id q, lq_client_secret q) /\
  lq_token q = body_param r "token" /\ lq_token_type_hint q = body_param r "token_type_hint" /\ lq_token q <> "".
Proof.
  unfold parse_lookup_request, client_credentials, body_param. intros H. cbv zeta in H.
  destruct (seqb (rq_method r) "POST") eqn:Em; [|done]. cbn [negb] in H.
  destruct (parse_form r) as [f|]; [|done].
  destruct (seqb (vget (f_post f) "token") "") eqn:Eg; [done|].
  destruct (basic_auth r) as [[id sec]|]; [|done]. injection H as <-. cbn. apply seqb_true in Em. apply seqb_false in Eg. done.
Qed.
Lemma prologue_inl s r req t : lookup_prologue s r = inl (req, t) ->
  parse_lookup_request r = inl req /\ authenticates s (lq_client_id req) (lq_client_secret req) /\
  parse_token (server_secret s) (lq_token req) = inl t /\
  (lq_token_type_hint req = "" \/ known_token_type (lq_token_type_hint req) = true).
Proof.
  unfold lookup_prologue. intros H. destruct (parse_lookup_request r) as [q|]; [|done].
  destruct (negb (seqb (lq_token_type_hint q) "") && negb (known_token_type (lq_token_type_hint q))) eqn:Eh; [done|].
  destruct (sv_clients s !! lq_client_id q) as [c|] eqn:Ec; [|done].
  destruct (client_ok c (lq_client_secret q)) eqn:Eo; [|done]. cbn [negb] in H.
  destruct (parse_token (cfg_secret (sv_config s)) (lq_token q)) as [t'|] eqn:Et; [|done]. injection H as -> ->.
  split; [done|]. split; [apply authenticates_spec; eauto|]. split; [done|].
  apply andb_false_iff in Eh. rewrite !negb_false_iff, seqb_true in Eh. done.
Qed.
Lemma at_token_facts s r req c : at_token s r req c ->
  endpoint r "token" /\ rq_method r = "POST" /\ client_credentials r = (tq_client_id req, tq_client_secret req) /\
  authenticates s (tq_client_id req) (tq_client_secret req).
Proof.
  intros (H1 & H2 & H3 & H4). apply endpoint_token in H1. apply parse_token_inl in H2 as (Hm & Hc & _).
  split; [done|]. split; [done|]. split; [done|]. apply authenticates_spec. eauto.
Qed.
Lemma at_lookup_facts seg s r req t : at_lookup seg s r req t ->
  last_segment (rq_path r) = seg /\ rq_method r = "POST" /\ client_credentials r = (lq_client_id req, lq_client_secret req) /\
  authenticates s (lq_client_id req) (lq_client_secret req) /\
  names (server_secret s) (body_param r "token") (signature_string t).
Proof.
  intros (H1 & H2). apply prologue_inl in H2 as (H2 & H3 & H4 & _). apply parse_lookup_inl in H2 as (H5 & _ & H6 & H7 & _).
  split; [done|]. split; [done|]. split; [done|]. split; [done|]. rewrite <- H7. by apply names_parsed.
Qed.

Lemma handled_of ev s r res : handle ev s r = res -> handled ev s r res.
Proof. intros <-. apply handle_handled. Qed.

(** ** Generated tokens *)
Lemma generated_names c src t rest : cfg_must_generate c src = Some (t, rest) ->
  names (cfg_secret c) (token_string t) (signature_string t).
Proof.
  unfold cfg_must_generate, must_generate, generate. intros H. destruct (_ <? 0)%Z; [done|].
  destruct (read_full _ src) as [[key rest']|]; [|done]. injection H as <- <-. apply names_issued.
Qed.
Lemma names_empty secret sg : ~ names secret "" sg.
Proof. intros (s0 & s1 & key & (H & _) & _). by destruct s0. Qed.

Lemma issued_access_facts ev s sc client username code s' t :
  issued_access ev s sc client username code s' t ->
  exists sg, names (server_secret s) (tr_access_token t) sg /\ tr_refresh_token t = "" /\ tr_scope t = sc /\
    tr_token_type t = "bearer" /\ tr_expires_in t = Z.quot (cfg_access_lifespan (sv_config s)) second /\
    s' = set_access s (<[sg := new_cred client username (ev_now_access ev + cfg_access_lifespan (sv_config s))%Z sc code]> (sv_access s)).
Proof.
  intros (a & src & Hg & -> & ->). exists (signature_string a). cbn. split; [by eapply generated_names|]. done.
Qed.
Lemma issued_both_facts ev s sc client username code s' t :
  issued_both ev s sc client username code s' t ->
  exists sg sgf, names (server_secret s) (tr_access_token t) sg /\ names (server_secret s) (tr_refresh_token t) sgf /\
    tr_scope t = sc /\ tr_token_type t = "bearer" /\
    tr_expires_in t = Z.quot (cfg_access_lifespan (sv_config s)) second /\
    s' = {| sv_config := sv_config s; sv_clients := sv_clients s; sv_users := sv_users s;
            sv_access := <[sg := new_cred client username (ev_now_access ev + cfg_access_lifespan (sv_config s))%Z sc code]> (sv_access s);
            sv_refresh := <[sgf := new_cred client username (ev_now_refresh ev + cfg_refresh_lifespan (sv_config s))%Z sc code]> (sv_refresh s);
            sv_codes := sv_codes s |}.
Proof.
  intros (a & src & f & src' & Hg & Hg' & -> & ->). exists (signature_string a), (signature_string f). cbn.
  split; [by eapply generated_names|]. split; [by eapply generated_names|]. done.
Qed.


(** ** C28 *)
Lemma introspection_state s r : res_server (introspection_endpoint s r) = s.
Proof.
  unfold introspection_endpoint. destruct (lookup_prologue s r) as [[req t]|e]; [|done]. cbv zeta.
  destruct (sv_access s !! signature_string t) as [a|].
  - destruct (negb (seqb (cd_client_id a) (lq_client_id req))); [done|].
    destruct (sv_refresh s !! signature_string t) as [f|]; [|done].
    destruct (negb (seqb (cd_client_id f) (lq_client_id req))); done.
  - destruct (sv_refresh s !! signature_string t) as [f|]; [|done].
    destruct (negb (seqb (cd_client_id f) (lq_client_id req))); done.
Qed.
Lemma serve_state ev s r w : fst (serve_http ev s r w) = res_server (handle ev s r).
Proof. unfold serve_http. by destruct (handle ev s r). Qed.
Lemma c28_read_only : forall ev s r w,
  endpoint r "introspect" \/ (endpoint r "authorize" /\ rq_method r = "GET") \/ other_path r ->
  fst (serve_http ev s r w) = s.
Proof.
  intros ev s r w H. rewrite serve_state. destruct H as [H|[[H Hm]|H]].
  - apply endpoint_introspect in H. unfold handle. cbv zeta. rewrite H. cbn. apply introspection_state.
  - apply endpoint_authorize in H. unfold handle. cbv zeta. rewrite H. cbn [seqb]. change (seqb "authorize" "authorize") with true.
    cbv iota. unfold authorization_endpoint. rewrite Hm. change (seqb "GET" "GET") with true. cbv iota.
    destruct (parse_authorization_request r) as [req|e]; [|done].
    destruct (negb _); [done|]. destruct (sv_clients s !! aq_client_id req) as [c|]; [|done].
    destruct (negb _); done.
  - apply other_path_spec in H as (H1 & H2 & H3 & H4). apply seqb_false in H1, H2, H3, H4.
    unfold handle. cbv zeta. by rewrite H1, H2, H3, H4.
Qed.

(** ** Token answers *)
Lemma token_answer_cases ev s r s' t : handle ev s r = Done s' (OToken t) ->
  exists t0 client owner code,
  (tr_access_token t = tr_access_token t0 /\ tr_refresh_token t = tr_refresh_token t0 /\ tr_scope t = tr_scope t0 /\
   tr_expires_in t = tr_expires_in t0 /\ tr_token_type t = tr_token_type t0) /\
  ((exists s1, issued_both ev s (tr_scope t) client owner code s1 t0 /\ sv_config s' = sv_config s /\
     sv_clients s' = sv_clients s /\ sv_users s' = sv_users s /\ sv_access s' = sv_access s1) \/
   (issued_access ev s (tr_scope t) client owner code s' t0)).
Proof.
  intros H. apply handled_of in H. inversion H; subst.
  - exists t0, (aq_client_id req), (r_user r), "". split; [done|]. right.
    match goal with H : issued_access _ _ _ _ _ _ _ _ |- _ => pose proof H as (? & ? & _ & -> & _) end. done.
  - match goal with H : issued_both _ _ _ _ _ _ _ _ |- _ => pose proof H as (? & ? & ? & ? & _ & _ & -> & ->) end.
    eexists _, _, _, _. split; [done|]. left. eexists. cbn [tr_scope]. split; [eassumption|]. done.
  - match goal with H : issued_both _ _ _ _ _ _ _ _ |- _ => pose proof H as (? & ? & ? & ? & _ & _ & -> & ->) end.
    eexists _, _, _, _. split; [done|]. left. eexists. cbn [tr_scope]. split; [eassumption|]. done.
  - match goal with H : issued_both _ _ _ _ _ _ _ _ |- _ => pose proof H as (? & ? & ? & ? & _ & _ & -> & ->) end.
    eexists _, _, _, _. split; [done|]. left. eexists. cbn [tr_scope]. split; [eassumption|]. done.
  - match goal with H : issued_both _ _ _ _ _ _ _ _ |- _ => pose proof H as (? & ? & ? & ? & _ & _ & -> & ->) end.
    eexists _, _, _, _. split; [done|]. left. eexists. cbn [tr_scope]. split; [eassumption|]. done.
Qed.
Lemma token_answer_access ev s r s' t : handle ev s r = Done s' (OToken t) ->
  tr_expires_in t = Z.quot (cfg_access_lifespan (sv_config s)) second /\ tr_token_type t = "bearer" /\
  sv_config s' = sv_config s /\ sv_clients s' = sv_clients s /\ sv_users s' = sv_users s /\
  exists sg c, names (server_secret s) (tr_access_token t) sg /\
    sv_access s' = <[sg := c]> (sv_access s) /\
    cd_expires_at c = (ev_now_access ev + cfg_access_lifespan (sv_config s))%Z /\ cd_scope c = tr_scope t /\ cd_used c = false.
Proof.
  intros H. apply token_answer_cases in H as (t0 & client & owner & code & (Ha & _ & Hsc & He & Hty) & H).
  rewrite Ha, He, Hty. destruct H as [(s1 & H & H1 & H2 & H3 & H4)|H].
  - apply issued_both_facts in H as (sg & sgf & Hn & _ & _ & Ht & Hx & ->). cbn in H4.
    repeat (split; [done|]). exists sg. eexists. split; [done|]. split; [done|]. done.
  - apply issued_access_facts in H as (sg & Hn & _ & _ & Ht & Hx & ->).
    repeat (split; [done|]). exists sg. eexists. split; [done|]. split; [done|]. done.
Qed.

(** ** C30 *)
Lemma c30_expires_in : forall ev s r s' t, handle ev s r = Done s' (OToken t) ->
  tr_expires_in t = Z.quot (cfg_access_lifespan (sv_config s)) second.
Proof. intros ev s r s' t H. by apply token_answer_access in H as (-> & _). Qed.
Lemma granted_spec now s r required w : unsent w ->
  (exists str c, bearer r str /\ access_token s str c /\ (now <= cd_expires_at c)%Z /\ covers (cd_scope c) required) ->
  authorize now s r required w = Some (true, w).
Proof.
  intros Hw H. destruct (proj2 (c27_granted now s r required w) H) as (w' & Hw'). rewrite Hw'.
  by rewrite (c27_silent _ _ _ _ _ _ Hw').
Qed.
Lemma c30_accepted : forall ev s r s' t s'' r' required now w,
  handle ev s r = Done s' (OToken t) -> (0 <= cfg_access_lifespan (sv_config s))%Z ->
  sv_config s'' = sv_config s' ->
  (forall sg, names (server_secret s) (tr_access_token t) sg -> sv_access s'' !! sg = sv_access s' !! sg) ->
  bearer r' (tr_access_token t) -> covers (tr_scope t) required ->
  (now <= ev_now_access ev + tr_expires_in t * second)%Z ->
  unsent w -> authorize now s'' r' required w = Some (true, w).
Proof.
  intros ev s r s' t s'' r' required now w H Hl Hc Hs Hb Hr Hn Hw.
  apply token_answer_access in H as (He & _ & Hcfg & _ & _ & sg & c & Hsg & Ha & Hx & Hsc & _).
  apply granted_spec; [done|]. exists (tr_access_token t), c. split; [done|]. split.
  { exists sg. unfold server_secret in *. rewrite Hc, Hcfg. split; [done|]. rewrite Hs by done. rewrite Ha. apply lookup_insert. }
  rewrite Hx, Hsc. split; [|done]. rewrite He in Hn.
  enough (Z.quot (cfg_access_lifespan (sv_config s)) second * second <= cfg_access_lifespan (sv_config s))%Z by lia.
  rewrite Z.mul_comm. apply Z.mul_quot_le; [done|]. unfold second. lia.
Qed.

(** ** C32 *)
Lemma scope_empty_items sc : scope_empty sc = true <-> items sc = [].
Proof. unfold scope_empty. rewrite Nat.eqb_eq. destruct (items sc); done. Qed.

Lemma at_token_grant s r req c : at_token s r req c -> tq_grant_type req = body_param r "grant_type".
Proof. intros (_ & H & _). by apply parse_token_inl in H as (_ & _ & -> & _). Qed.
Lemma not_authorize_token r : endpoint r "token" -> last_segment (rq_path r) = "authorize" -> False.
Proof. rewrite endpoint_token. congruence. Qed.

Lemma refresh_answer ev s r s' t : handle ev s r = Done s' (OToken t) ->
  endpoint r "token" -> body_param r "grant_type" = "refresh_token" ->
  exists client secret sg d sga sgf,
    client_credentials r = (client, secret) /\ authenticates s client secret /\
    names (server_secret s) (body_param r "refresh_token") sg /\ sv_refresh s !! sg = Some d /\
    (ev_now_check ev <= cd_expires_at d)%Z /\ cd_client_id d = client /\
    covers (cd_scope d) (tr_scope t) /\
    tr_scope t = (if scope_empty (parse_scope (body_param r "scope")) then cd_scope d else parse_scope (body_param r "scope")) /\
    names (server_secret s) (tr_access_token t) sga /\ names (server_secret s) (tr_refresh_token t) sgf /\
    sv_access s' = <[sga := new_cred client (cd_username d) (ev_now_access ev + cfg_access_lifespan (sv_config s))%Z (tr_scope t) ""]> (sv_access s) /\
    sv_refresh s' = delete sg (<[sgf := new_cred client (cd_username d) (ev_now_refresh ev + cfg_refresh_lifespan (sv_config s))%Z (tr_scope t) ""]> (sv_refresh s)) /\
    sv_codes s' = sv_codes s.
Proof.
  intros H He Hg. apply handled_of in H. inversion H; subst;
    try (match goal with H : at_authorize _ _ _ _ |- _ => destruct H as (Hx & _); by apply not_authorize_token in Hx end);
    try (match goal with H : at_token _ _ _ _ |- _ => apply at_token_grant in H; congruence end).
  match goal with H : at_token _ _ _ _ |- _ => pose proof H as Hat; destruct H as (_ & Hp & _) end.
  apply at_token_facts in Hat as (_ & _ & Hcc & Hau).
  apply parse_token_inl in Hp as (_ & _ & _ & _ & _ & Hrt & _ & Hsc & _).
  match goal with H : issued_both _ _ _ _ _ _ _ _ |- _ => apply issued_both_facts in H as (sga & sgf & Hna & Hnf & Hts & _ & _ & ->) end.
  exists (tq_client_id req), (tq_client_secret req), (signature_string k), d, sga, sgf. cbn. unfold server_secret in *.
  split; [done|]. split; [done|]. split; [rewrite <- Hrt; by apply names_parsed|]. split; [done|]. split; [done|]. split; [done|].
  rewrite Hts. split; [by apply covers_spec|]. rewrite Hsc. done.
Qed.

Lemma c32_refresh : forall ev s r s' t,
  handle ev s r = Done s' (OToken t) -> endpoint r "token" -> body_param r "grant_type" = "refresh_token" ->
  exists d, refresh_token s (body_param r "refresh_token") d /\ from_client s r (cd_client_id d) /\
    (ev_now_check ev <= cd_expires_at d)%Z /\
    covers (cd_scope d) (tr_scope t) /\
    (items (parse_scope (body_param r "scope")) = [] -> tr_scope t = cd_scope d) /\
    (items (parse_scope (body_param r "scope")) <> [] -> tr_scope t = parse_scope (body_param r "scope")) /\
    (exists a, access_token s' (tr_access_token t) a /\ cd_client_id a = cd_client_id d /\
       cd_username a = cd_username d /\ cd_scope a = tr_scope t) /\
    (forall f, refresh_token s' (tr_refresh_token t) f -> cd_client_id f = cd_client_id d /\
       cd_username f = cd_username d /\ cd_scope f = tr_scope t) /\
    ((forall sg, names (server_secret s) (body_param r "refresh_token") sg -> ~ names (server_secret s) (tr_refresh_token t) sg) ->
       exists f, refresh_token s' (tr_refresh_token t) f) /\
    (forall f, ~ refresh_token s' (body_param r "refresh_token") f).
Proof.
  intros ev s r s' t H He Hg.
  pose proof (token_answer_access _ _ _ _ _ H) as (_ & _ & Hcfg & _).
  destruct (refresh_answer ev s r s' t H He Hg) as (client & secret & sg & d & sga & sgf & H1 & H2 & H3 & H4 & H5 & H6 & H7 & H8 & H9 & H10 & H11 & H12 & H13).
  assert (Hss : server_secret s' = server_secret s) by (unfold server_secret; by rewrite Hcfg).
  exists d. split; [by exists sg|]. split; [exists secret; by rewrite H6|]. split; [done|]. split; [done|].
  split. { intros Hi. apply scope_empty_items in Hi. by rewrite H8, Hi. }
  split. { intros Hi. rewrite H8. destruct (scope_empty (parse_scope (body_param r "scope"))) eqn:E; [|done]. by apply scope_empty_items in E. }
  split. { eexists. split; [exists sga; rewrite Hss, H11; split; [done|apply lookup_insert]|]. by rewrite H6. }
  split.
  { intros f (sg' & Hn & Hf). rewrite Hss in Hn. assert (sg' = sgf) as -> by (eapply names_fun; done).
    rewrite H12 in Hf. apply lookup_delete_Some in Hf as [_ Hf]. rewrite lookup_insert in Hf. injection Hf as <-. by rewrite H6. }
  split.
  { intros Hd. eexists. exists sgf. rewrite Hss, H12. split; [done|]. rewrite lookup_delete_ne; [apply lookup_insert|].
    intros ->. by apply (Hd sgf). }
  intros f (sg' & Hn & Hf). rewrite Hss in Hn. assert (sg' = sg) as -> by (eapply names_fun; done).
  rewrite H12, lookup_delete in Hf. done.
Qed.

(** ** C36 *)
Lemma revoke_order_lookup sg order m k :
  revoke_code_order sg order m !! k =
  match m !! k with
  | Some c => if in_dec string_dec k order then (if seqb (cd_code c) sg then None else Some c) else Some c
  | None => None
  end.
Proof.
  revert m. induction order as [|x order IH]; intros m.
  { cbn. by destruct (m !! k). }
  cbn [revoke_code_order fold_left]. fold (revoke_code_order sg order).
  assert (Hf : fold_left (fun acc key => match acc !! key with Some token => if seqb (cd_code token) sg then delete key acc else acc | None => acc end)
     order (match m !! x with Some token => if seqb (cd_code token) sg then delete x m else m | None => m end)
     = revoke_code_order sg order (match m !! x with Some token => if seqb (cd_code token) sg then delete x m else m | None => m end)) by done.
  rewrite Hf, IH. clear Hf IH. destruct (decide (k = x)) as [->|Hk].
  - destruct (m !! x) as [c|] eqn:Ex; [|by rewrite Ex]. destruct (in_dec string_dec x (x :: order)) as [_|Hn]; [|by destruct Hn; left].
    destruct (seqb (cd_code c) sg) eqn:Ec.
    + by rewrite lookup_delete.
    + rewrite Ex, Ec. by destruct (in_dec string_dec x order).
  - assert (Hm : (match m !! x with Some token => if seqb (cd_code token) sg then delete x m else m | None => m end) !! k = m !! k).
    { destruct (m !! x) as [c|]; [|done]. destruct (seqb (cd_code c) sg); [|done]. by rewrite lookup_delete_ne. }
    rewrite Hm. destruct (m !! k) as [c|]; [|done].
    destruct (in_dec string_dec k order) as [Hi|Hi]; destruct (in_dec string_dec k (x :: order)) as [Hj|Hj]; try done.
    + destruct Hj. by right.
    + destruct Hj as [->|?]; done.
Qed.
Lemma in_keys {A} (m : gmap string A) k : In k (map fst (map_to_list m)) <-> is_Some (m !! k).
Proof.
  rewrite in_map_iff. split.
  - intros ([k' c] & <- & H). exists c. apply elem_of_map_to_list. by apply elem_of_list_In.
  - intros [c H]. exists (k, c). split; [done|]. apply elem_of_list_In. by apply elem_of_map_to_list.
Qed.
Lemma revoke_code_without sg m : without_code sg m (revoke_code sg m).
Proof.
  intros k c. unfold revoke_code. rewrite revoke_order_lookup. destruct (m !! k) as [d|] eqn:Ed.
  - destruct (in_dec string_dec k (map fst (map_to_list m))) as [_|Hn]; [|destruct Hn; apply in_keys; eauto]. destruct (seqb (cd_code d) sg) eqn:Es.
    + apply seqb_true in Es. split; [done|]. intros [H Hn]. injection H as <-. done.
    + apply seqb_false in Es. split; [intros H; by injection H as <-|]. by intros [? _].
  - split; [done|]. by intros [? _].
Qed.
Lemma c36_any_order : forall sg order m, Permutation order (map fst (map_to_list m)) ->
  without_code sg m (revoke_code_order sg order m).
Proof.
  intros sg order m Hp k c. rewrite <- (revoke_code_without sg m k c). unfold revoke_code. rewrite !revoke_order_lookup.
  destruct (m !! k) as [d|] eqn:Ed; [|done].
  assert (Hi : In k (map fst (map_to_list m))) by (apply in_keys; eauto).
  assert (Hj : In k order) by (eapply Permutation_in; [by symmetry|done]).
  destruct (in_dec string_dec k order); [|done]. by destruct (in_dec string_dec k (map fst (map_to_list m))).
Qed.

Lemma known_grants g : known_grant_type g = true <-> In g grant_types.
Proof.
  unfold known_grant_type, grant_types, PasswordGrantType, ClientCredentialsGrantType, AuthorizationCodeGrantType, RefreshTokenGrantType.
  split.
  - destruct (seqb g "password") eqn:E1; [apply seqb_true in E1 as ->; cbn; tauto|].
    destruct (seqb g "client_credentials") eqn:E2; [apply seqb_true in E2 as ->; cbn; tauto|].
    destruct (seqb g "authorization_code") eqn:E3; [apply seqb_true in E3 as ->; cbn; tauto|].
    destruct (seqb g "refresh_token") eqn:E4; [apply seqb_true in E4 as ->; cbn; tauto|]. done.
  - intros [<-|[<-|[<-|[<-|[]]]]]; reflexivity.
Qed.
Lemma known_hints h : (negb (seqb h "") && negb (known_token_type h)) = false <-> In h [""; "access_token"; "refresh_token"].
Proof.
  rewrite andb_false_iff, !negb_false_iff, seqb_true. unfold known_token_type, AccessToken, RefreshToken. split.
  - intros [->|H]; [by left|]. destruct (seqb h "access_token") eqn:E; [apply seqb_true in E as ->; cbn; tauto|].
    destruct (seqb h "refresh_token") eqn:E'; [apply seqb_true in E' as ->; cbn; tauto|]. done.
  - intros [<-|[<-|[<-|[]]]]; [by left|right; reflexivity|right; reflexivity].
Qed.

(** ** Complete requests *)
Lemma handle_token ev s r : endpoint r "token" -> handle ev s r = token_endpoint ev s r.
Proof. rewrite endpoint_token. intros H. unfold handle. cbv zeta. by rewrite H. Qed.
Lemma handle_authorize ev s r : endpoint r "authorize" -> handle ev s r = authorization_endpoint ev s r.
Proof. rewrite endpoint_authorize. intros H. unfold handle. cbv zeta. by rewrite H. Qed.
Lemma handle_introspect ev s r : endpoint r "introspect" -> handle ev s r = introspection_endpoint s r.
Proof. rewrite endpoint_introspect. intros H. unfold handle. cbv zeta. by rewrite H. Qed.
Lemma handle_revoke ev s r : endpoint r "revoke" -> handle ev s r = revocation_endpoint s r.
Proof. rewrite endpoint_revoke. intros H. unfold handle. cbv zeta. by rewrite H. Qed.
Lemma handle_other ev s r : other_path r -> handle ev s r = Done s ONotFound.
Proof.
  rewrite other_path_spec. intros (H1 & H2 & H3 & H4). apply seqb_false in H1, H2, H3, H4.
  unfold handle. cbv zeta. by rewrite H1, H2, H3, H4.
Qed.

(** The client check of a complete request. *)
Lemma token_client s r q : parse_token_request r = inl q ->
  (exists c, from_client s r (tq_client_id q) /\ sv_clients s !! tq_client_id q = Some c /\ client_ok c (tq_client_secret q) = true) \/
  (unauthenticated s r /\ match sv_clients s !! tq_client_id q with Some c => client_ok c (tq_client_secret q) = false | None => True end).
Proof.
  intros H. apply parse_token_inl in H as (_ & Hc & _).
  assert (Hu : (forall c, sv_clients s !! tq_client_id q = Some c -> client_ok c (tq_client_secret q) = false) -> unauthenticated s r).
  { intros Hn id (secret & Hcc & Ha). rewrite Hc in Hcc. injection Hcc as <- <-.
    apply authenticates_spec in Ha as (c & Hc1 & Hc2). rewrite (Hn c Hc1) in Hc2. done. }
  destruct (sv_clients s !! tq_client_id q) as [c|] eqn:Ec.
  - destruct (client_ok c (tq_client_secret q)) eqn:Eo.
    + left. exists c. split; [|done]. exists (tq_client_secret q). split; [done|]. apply authenticates_spec. eauto.
    + right. split; [|done]. apply Hu. intros c' H'. by injection H' as <-.
  - right. split; [|done]. apply Hu. done.
Qed.
Lemma lookup_client s r q : parse_lookup_request r = inl q ->
  (exists c, from_client s r (lq_client_id q) /\ sv_clients s !! lq_client_id q = Some c /\ client_ok c (lq_client_secret q) = true) \/
  (unauthenticated s r /\ match sv_clients s !! lq_client_id q with Some c => client_ok c (lq_client_secret q) = false | None => True end).
Proof.
  intros H. apply parse_lookup_inl in H as (_ & _ & Hc & _).
  assert (Hu : (forall c, sv_clients s !! lq_client_id q = Some c -> client_ok c (lq_client_secret q) = false) -> unauthenticated s r).
  { intros Hn id (secret & Hcc & Ha). rewrite Hc in Hcc. injection Hcc as <- <-.
    apply authenticates_spec in Ha as (c & Hc1 & Hc2). rewrite (Hn c Hc1) in Hc2. done. }
  destruct (sv_clients s !! lq_client_id q) as [c|] eqn:Ec.
  - destruct (client_ok c (lq_client_secret q)) eqn:Eo.
    + left. exists c. split; [|done]. exists (lq_client_secret q). split; [done|]. apply authenticates_spec. eauto.
    + right. split; [|done]. apply Hu. intros c' H'. by injection H' as <-.
  - right. split; [|done]. apply Hu. done.
Qed.
Lemma from_client_fun s r a b : from_client s r a -> from_client s r b -> a = b.
Proof. intros (x & H & _) (y & H' & _). congruence. Qed.

(** A complete token request past the client check. *)
Lemma token_past_client ev s r id : complete_token_request r -> from_client s r id ->
  exists q c, parse_token_request r = inl q /\ tq_client_id q = id /\ sv_clients s !! id = Some c /\
   client_ok c (tq_client_secret q) = true /\
   handle ev s r = (if seqb (tq_grant_type q) PasswordGrantType then handle_password ev s q
          else if seqb (tq_grant_type q) ClientCredentialsGrantType then handle_client_credentials ev s q
          else if seqb (tq_grant_type q) AuthorizationCodeGrantType then handle_code ev s q
          else handle_refresh ev s q).
Proof.
  intros (He & (q & Hq) & Hg) Hf. pose proof (parse_token_inl r q Hq) as (_ & Hcc & Hgt & _).
  destruct (token_client s r q Hq) as [(c & Hf' & Hc & Ho)|(Hu & _)]; [|by apply Hu in Hf].
  assert (tq_client_id q = id) as Hid by (eapply from_client_fun; done). subst id.
  exists q, c. do 4 (split; [done|]). rewrite handle_token by done. unfold token_endpoint. rewrite Hq, Hc, Ho.
  rewrite Hgt. apply known_grants in Hg. by rewrite Hg.
Qed.

Lemma c36_replay : forall ev s r id sg,
  complete_token_request r -> from_client s r id -> replays s r sg ->
  exists s', handle ev s r = Done s' (OError (InvalidGrant "unknown authorization code")) /\
    same_registry s s' /\ sv_codes s' = sv_codes s /\
    without_code sg (sv_access s) (sv_access s') /\ without_code sg (sv_refresh s) (sv_refresh s').
Proof.
  intros ev s r id sg Hc Hf (He & Hg & Hn & d & Hd & Hu).
  destruct (token_past_client ev s r id Hc Hf) as (q & c & Hq & _ & _ & _ & ->).
  apply parse_token_inl in Hq as (_ & _ & Hgt & _ & _ & _ & Hcode & _). rewrite Hgt, Hg. cbn.
  apply names_spec in Hn as (t & Ht & ->). rewrite <- Hcode in Ht. unfold handle_code, server_secret in *. rewrite Ht. cbv zeta.
  rewrite Hd, Hu. eexists. split; [reflexivity|]. cbn. split; [done|]. split; [done|].
  split; apply revoke_code_without.
Qed.
Lemma c36_answer : forall ev s r id sg,
  complete_token_request r -> from_client s r id -> replays s r sg ->
  exists s' w, serve_http ev s r new_rw = (s', Some w) /\ error_document w 400 "invalid_grant".
Proof.
  intros ev s r id sg Hc Hf Hr. destruct (c36_replay ev s r id sg Hc Hf Hr) as (s' & Hh & _).
  destruct (write_plain (InvalidGrant "unknown authorization code")) as (w & Hw & _ & Hd & _); [by apply plain_invalid_grant|].
  exists s', w. unfold serve_http. rewrite Hh. by rewrite Hw.
Qed.

(** ** C38 *)
Lemma c38_success : forall ev s r s' o, handle ev s r = Done s' o ->
  endpoint r "token" \/ endpoint r "introspect" \/ endpoint r "revoke" ->
  (forall e, o <> OError e) \/ s' <> s -> exists id, from_client s r id.
Proof.
  intros ev s r s' o H He Ho. rewrite endpoint_token, endpoint_introspect, endpoint_revoke in He.
  apply handled_of in H. inversion H; subst;
   try (match goal with H : at_authorize _ _ _ _ |- _ => destruct H as (Hx & _); rewrite Hx in He; naive_solver end);
   try (match goal with H : at_token _ _ _ _ |- _ => apply at_token_facts in H as (_ & _ & H1 & H2) end; eexists _, _; eauto);
   try (match goal with H : at_lookup _ _ _ _ _ |- _ => apply at_lookup_facts in H as (_ & _ & H1 & H2 & _) end; eexists _, _; eauto).
  - destruct Ho as [Ho|]; [|done]. by destruct (Ho e).
  - naive_solver.
Qed.
Lemma wrong_client_answer ev s r s' : handle ev s r = Done s' (OError (InvalidClient "unknown client")) ->
  exists w, serve_http ev s r new_rw = (s', Some w) /\ error_document w 401 "invalid_client" /\
    header_values w "Www-Authenticate" = ["Basic realm=" +:+ quoted "OAuth2"].
Proof.
  intros H. destruct (write_plain (InvalidClient "unknown client")) as (w & Hw & _ & Hd & Hh & _); [by apply plain_invalid_client|].
  exists w. unfold serve_http. rewrite H, Hw. done.
Qed.
Lemma prologue_unauthenticated s r q : parse_lookup_request r = inl q ->
  In (body_param r "token_type_hint") [""; "access_token"; "refresh_token"] -> unauthenticated s r ->
  lookup_prologue s r = inr (InvalidClient "unknown client").
Proof.
  intros Hq Hh Hu. unfold lookup_prologue. rewrite Hq.
  pose proof (parse_lookup_inl r q Hq) as (_ & _ & _ & _ & Hhint & _). rewrite Hhint.
  apply known_hints in Hh. rewrite Hh.
  destruct (lookup_client s r q Hq) as [(c & Hf & _)|(_ & Hc)]; [by apply Hu in Hf|].
  destruct (sv_clients s !! lq_client_id q) as [c|]; [|done]. by rewrite Hc.
Qed.
Lemma unauthenticated_answer ev s r :
  complete_token_request r \/ complete_introspection r \/ complete_revocation r -> unauthenticated s r ->
  handle ev s r = Done s (OError (InvalidClient "unknown client")).
Proof.
  intros [(He & (q & Hq) & Hg)|[(He & (q & Hq) & Hh)|(He & (q & Hq) & Hh)]] Hu.
  - rewrite handle_token by done. unfold token_endpoint. rewrite Hq.
    pose proof (parse_token_inl r q Hq) as (_ & _ & Hgt & _). rewrite Hgt. apply known_grants in Hg. rewrite Hg. cbn [negb].
    destruct (token_client s r q Hq) as [(c & Hf & _)|(_ & Hc)]; [by apply Hu in Hf|].
    destruct (sv_clients s !! tq_client_id q) as [c|]; [|done]. by rewrite Hc.
  - rewrite handle_introspect by done. unfold introspection_endpoint. by erewrite prologue_unauthenticated.
  - rewrite handle_revoke by done. unfold revocation_endpoint. by erewrite prologue_unauthenticated.
Qed.
Lemma c38_refused : forall ev s r,
  complete_token_request r \/ complete_introspection r \/ complete_revocation r -> unauthenticated s r ->
  exists w, serve_http ev s r new_rw = (s, Some w) /\ error_document w 401 "invalid_client" /\
    header_values w "Www-Authenticate" = ["Basic realm=" +:+ quoted "OAuth2"].
Proof. intros ev s r Hc Hu. apply wrong_client_answer. by apply unauthenticated_answer. Qed.

(** ** C39 *)
Lemma c39_public : forall ev s r id secret c,
  endpoint r "token" -> body_param r "grant_type" = "client_credentials" ->
  client_credentials r = (id, secret) -> sv_clients s !! id = Some c -> en_confidential c = false ->
  exists w, serve_http ev s r new_rw = (s, Some w) /\
    (error_document w 401 "invalid_client" \/ error_document w 400 "invalid_request").
Proof.
  intros ev s r id secret c He Hg Hcc Hc Hp.
  assert (Hh : exists e, handle ev s r = Done s (OError e) /\ plain_error e /\
    ((e_status e = 401%Z /\ e_name e = "invalid_client") \/ (e_status e = 400%Z /\ e_name e = "invalid_request"))).
  { rewrite handle_token by done. unfold token_endpoint. destruct (parse_token_request r) as [q|e] eqn:Hq.
    2:{ exists e. split; [done|]. split; [by eapply parse_token_inr|]. right. unfold parse_token_request in Hq. split_match Hq; by injection Hq as <-. }
    pose proof (parse_token_inl r q Hq) as (_ & Hcc' & Hgt & _). rewrite Hgt, Hg. cbn [negb known_grant_type].
    rewrite Hcc in Hcc'. injection Hcc' as -> ->. rewrite Hc.
    assert (client_ok c (tq_client_secret q) = true) as -> by (unfold client_ok; by rewrite Hp). cbn.
    unfold handle_client_credentials. rewrite Hc, Hp. cbn. eexists. split; [done|]. auto. }
  destruct Hh as (e & Hh & He' & Hcase). destruct (write_plain e He') as (w & Hw & _ & Hd & _). exists w.
  unfold serve_http. rewrite Hh, Hw. split; [done|]. destruct Hcase as [[E1 E2]|[E1 E2]]; rewrite E1, E2 in Hd; auto.
Qed.
Lemma c38_wire : forall ev s r s' w, serve_http ev s r new_rw = (s', Some w) ->
  endpoint r "token" \/ endpoint r "introspect" \/ endpoint r "revoke" ->
  (status w < 400)%Z \/ s' <> s -> exists id, from_client s r id.
Proof.
  intros ev s r s' w H He Hs. apply served_handled in H as (o & H & Hw).
  assert (Hh : handle ev s r = Done s' o \/ True) by auto. clear Hh.
  rewrite endpoint_token, endpoint_introspect, endpoint_revoke in He.
  inversion H; subst;
   try (match goal with H : at_authorize _ _ _ _ |- _ => destruct H as (Hx & _); rewrite Hx in He; naive_solver end);
   try (match goal with H : at_token _ _ _ _ |- _ => apply at_token_facts in H as (_ & _ & H1 & H2) end; eexists _, _; eauto);
   try (match goal with H : at_lookup _ _ _ _ _ |- _ => apply at_lookup_facts in H as (_ & _ & H1 & H2 & _) end; eexists _, _; eauto).
  - destruct Hs as [Hs|]; [|done]. exfalso. destruct (write_plain e) as (w' & Hw' & Hst & _); [done|].
    rewrite Hw in Hw'. injection Hw' as <-. rewrite Hst in Hs.
    match goal with H : plain_error e |- _ => apply plain_error_shape in H as (_ & _ & _ & _ & _ & _ & Hx) end.
    destruct Hx as [(_ & Hx & _)|([Hx|Hx] & _)]; rewrite Hx in Hs; lia.
  - naive_solver.
Qed.

(** ** C41 *)
Lemma c41_state : forall ev s r w, endpoint r "authorize" -> sv_refresh (fst (serve_http ev s r w)) = sv_refresh s.
Proof.
  intros ev s r w He. rewrite serve_state. apply endpoint_authorize in He.
  assert (H : handled ev s r (handle ev s r)) by apply handle_handled.
  inversion H; subst; try done;
   try (match goal with H : at_token _ _ _ _ |- _ => destruct H as (Hx & _); congruence end);
   try (match goal with H : at_lookup _ _ _ _ _ |- _ => destruct H as (Hx & _); congruence end).
  match goal with H : issued_access _ _ _ _ _ _ _ _ |- _ => apply issued_access_facts in H as (? & _ & _ & _ & _ & _ & ->) end. done.
Qed.
Lemma implicit_answer ev s r s' t : handle ev s r = Done s' (OToken t) -> endpoint r "authorize" -> tr_refresh_token t = "".
Proof.
  intros H He. apply endpoint_authorize in He. apply handled_of in H. inversion H; subst;
   try (match goal with H : at_token _ _ _ _ |- _ => destruct H as (Hx & _); congruence end).
  match goal with H : issued_access _ _ _ _ _ _ _ _ |- _ => apply issued_access_facts in H as (? & _ & Hr & _) end. done.
Qed.
Lemma c41_fragment : forall ev s r s' w loc locs,
  serve_http ev s r new_rw = (s', Some w) -> header_values w "Location" = loc :: locs ->
  form_param r "response_type" = "token" ->
  rw_body w = "" /\
  exists uri, query_unescape (form_param r "redirect_uri") = Some uri /\
  (without "#" uri ->
   exists v, parse_query (fragment_of loc) = (v, true) /\ values_of v "refresh_token" = []).
Proof.
  intros ev s r s' w loc locs H Hl Ht. destruct (redirected_full _ _ _ _ _ _ _ H Hl) as (req & c & params & Hat & _ & -> & -> & Hloc & _ & Hst).
  split; [done|]. destruct (at_authorize_uri _ _ _ _ Hat) as (_ & [u Hu] & _ & Huri & Hrt & Hs & _). rewrite Huri.
  exists (aq_redirect_uri req). split; [done|]. intros Hh.
  rewrite Hrt in Ht. rewrite Ht in Hloc. change (seqb "token" "token") with true in Hloc.
  destruct (c17_exact _ _ params Hu Hh) as (loc' & v & H1 & H2 & H3 & _).
  rewrite Hloc in H1. injection H1 as <-. exists v. split; [done|].
  change "refresh_token" with (percent_encoded "refresh_token"). rewrite H3. unfold param_values. by rewrite Hst.
Qed.
Lemma c41_query : forall ev s r s' w loc locs,
  serve_http ev s r new_rw = (s', Some w) -> header_values w "Location" = loc :: locs ->
  form_param r "response_type" <> "token" ->
  rw_body w = "" /\
  exists uri, query_unescape (form_param r "redirect_uri") = Some uri /\
  (ascii_text uri -> without "#" uri -> uri <> "*" ->
   exists u u', parse_request_uri uri = Some u /\ parse_request_uri loc = Some u' /\
     values_of (url_query u') "refresh_token" = values_of (url_query u) "refresh_token").
Proof.
  intros ev s r s' w loc locs H Hl Ht. destruct (redirected_full _ _ _ _ _ _ _ H Hl) as (req & c & params & Hat & _ & -> & -> & Hloc & _ & Hst).
  split; [done|]. destruct (at_authorize_uri _ _ _ _ Hat) as (_ & [u Hu] & _ & Huri & Hrt & Hs & _). rewrite Huri.
  exists (aq_redirect_uri req). split; [done|]. intros Ha Hh Hstar.
  rewrite Hrt in Ht. rewrite (proj2 (seqb_false _ _) Ht) in Hloc.
  destruct (c16_query _ _ params Hu Ha Hstar) as (loc' & u' & H1 & H2 & H3 & H4).
  rewrite Hloc in H1. injection H1 as <-. exists u, u'. split; [done|]. split; [done|].
  destruct H4 as (v & Hv & Hk). unfold url_query at 1. rewrite Hv. cbn [fst]. rewrite Hk. unfold param_values. rewrite Hst. apply app_nil_r.
Qed.

(** ** C42 *)
Lemma replay_replays s r req c k d : at_token s r req c -> tq_grant_type req = "authorization_code" ->
  parse_token (cfg_secret (sv_config s)) (tq_code req) = inl k -> sv_codes s !! signature_string k = Some d -> cd_used d = true ->
  replays s r (signature_string k).
Proof.
  intros Hat Hg Hp Hd Hu. pose proof (at_token_grant _ _ _ _ Hat) as Hg'. pose proof Hat as (_ & Hq & _).
  apply parse_token_inl in Hq as (_ & _ & _ & _ & _ & _ & Hc & _). apply at_token_facts in Hat as (He & _).
  split; [done|]. split; [congruence|]. split; [rewrite <- Hc; by apply names_parsed|]. eauto.
Qed.
Lemma c42_error : forall ev s r s' e, handle ev s r = Done s' (OError e) ->
  s' = s \/
  (exists sg, replays s r sg /\ same_registry s s' /\ sv_codes s' = sv_codes s /\
     without_code sg (sv_access s) (sv_access s') /\ without_code sg (sv_refresh s) (sv_refresh s')) \/
  (endpoint r "revoke" /\ exists id sg a f, from_client s r id /\ names (server_secret s) (body_param r "token") sg /\
     sv_access s !! sg = Some a /\ sv_refresh s !! sg = Some f /\ cd_client_id a = id /\ cd_client_id f <> id /\
     same_registry s s' /\ sv_codes s' = sv_codes s /\ sv_refresh s' = sv_refresh s /\ sv_access s' = delete sg (sv_access s)).
Proof.
  intros ev s r s' e H. apply handled_of in H. inversion H; subst; try (left; done).
  - right. left. exists (signature_string k). split; [by eapply replay_replays|]. split; [done|]. split; [done|].
    split; apply revoke_code_without.
  - right. right. match goal with H : at_lookup _ _ _ _ _ |- _ => apply at_lookup_facts in H as (He & _ & Hcc & Hau & Hn) end.
    split; [by apply endpoint_revoke|]. exists (lq_client_id req), (signature_string t), a, f. split; [by eexists|].
    split_and!; done.
Qed.

(** ** C43 *)
Lemma read_full_app n src rest : match read_full n src with
  | Some (k, x) => read_full n (src +:+ rest) = Some (k, x +:+ rest)
  | None => True end.
Proof.
  revert src. induction n as [|n IH]; intros src; [done|]. destruct src as [|a src]; [done|]. cbn [read_full].
  rewrite app_cons_s. cbn [read_full]. specialize (IH src). destruct (read_full n src) as [[k x]|]; [|done]. by rewrite IH.
Qed.
Lemma cfg_generate_app c src rest : match cfg_must_generate c src with
  | Some (k, x) => cfg_must_generate c (src +:+ rest) = Some (k, x +:+ rest)
  | None => True end.
Proof.
  unfold cfg_must_generate, must_generate, generate. destruct (cfg_key_length c <? 0)%Z; [done|].
  pose proof (read_full_app (Z.to_nat (cfg_key_length c)) src rest) as H.
  destruct (read_full (Z.to_nat (cfg_key_length c)) src) as [[k x]|]; [|done]. by rewrite H.
Qed.
Lemma issue_less ev ev' s b sc client owner code : less_random ev ev' ->
  issue_tokens ev' s b sc client owner code = None \/
  issue_tokens ev' s b sc client owner code = issue_tokens ev s b sc client owner code.
Proof.
  intros (H1 & H2 & H3 & H4 & rest & Hr). unfold issue_tokens. cbv zeta. rewrite Hr, H2, H3.
  pose proof (cfg_generate_app (sv_config s) (ev_rand ev') rest) as HG.
  destruct (cfg_must_generate (sv_config s) (ev_rand ev')) as [[a src]|]; [|by left]. rewrite HG.
  destruct b; [|by right].
  pose proof (cfg_generate_app (sv_config s) src rest) as HG'.
  destruct (cfg_must_generate (sv_config s) src) as [[f src']|]; [|by left]. rewrite HG'. by right.
Qed.
Ltac less_random_issue :=
  match goal with
  | H : less_random ?ev ?ev' |- context [issue_tokens ?ev' ?s ?b ?sc ?c ?o ?k] =>
      destruct (issue_less ev ev' s b sc c o k H) as [E|E]; rewrite E; [by right|by left]
  end.
Lemma handle_less ev ev' s r : less_random ev ev' -> handle ev' s r = handle ev s r \/ handle ev' s r = Panic s.
Proof.
  intros HL. pose proof HL as (Hn & _ & _ & Hk & rest & Hr). unfold handle. cbv zeta.
  destruct (seqb (last_segment (rq_path r)) "authorize").
  { unfold authorization_endpoint. destruct (parse_authorization_request r) as [req|]; [|by left].
    destruct (negb _); [by left|]. destruct (sv_clients s !! aq_client_id req) as [c|]; [|by left].
    destruct (negb _); [by left|]. destruct (seqb (rq_method r) "GET"); [by left|]. cbv zeta.
    destruct (seqb (aq_response_type req) TokenResponseType).
    - unfold handle_implicit. destruct (negb _); [by left|]. destruct (negb _); [by left|]. less_random_issue.
    - unfold handle_code_authorization. destruct (negb _); [by left|]. destruct (negb _); [by left|]. rewrite Hr, Hk.
      pose proof (cfg_generate_app (sv_config s) (ev_rand ev') rest) as HG.
      destruct (cfg_must_generate (sv_config s) (ev_rand ev')) as [[a src]|]; [|by right]. rewrite HG. by left. }
  destruct (seqb (last_segment (rq_path r)) "token"); [|by left].
  unfold token_endpoint. destruct (parse_token_request r) as [req|]; [|by left].
  destruct (negb _); [by left|]. destruct (sv_clients s !! tq_client_id req) as [c|] eqn:Ec; [|by left].
  destruct (negb _); [by left|].
  destruct (seqb (tq_grant_type req) PasswordGrantType).
  { unfold handle_password. destruct (negb _); [by left|]. destruct (negb _); [by left|]. less_random_issue. }
  destruct (seqb (tq_grant_type req) ClientCredentialsGrantType).
  { unfold handle_client_credentials. rewrite Ec. destruct (negb _); [by left|]. destruct (negb _); [by left|]. less_random_issue. }
  destruct (seqb (tq_grant_type req) AuthorizationCodeGrantType).
  { unfold handle_code. destruct (parse_token _ _) as [k|]; [|by left]. cbv zeta.
    destruct (sv_codes s !! signature_string k) as [d|]; [|by left]. destruct (cd_used d); [by left|].
    rewrite Hn. destruct (_ <? _)%Z; [by left|]. destruct (negb _); [by left|]. destruct (negb _); [by left|]. less_random_issue. }
  unfold handle_refresh. destruct (parse_token _ _) as [k|]; [|by left]. cbv zeta.
  destruct (sv_refresh s !! signature_string k) as [d|]; [|by left].
  rewrite Hn. destruct (_ <? _)%Z; [by left|]. destruct (negb _); [by left|]. destruct (negb _); [by left|]. less_random_issue.
Qed.
Lemma c43_failing_source : forall ev ev' s r w, less_random ev ev' ->
  serve_http ev' s r w = serve_http ev s r w \/ serve_http ev' s r w = (s, None).
Proof.
  intros ev ev' s r w H. unfold serve_http. destruct (handle_less ev ev' s r H) as [-> | ->]; [by left|by right].
Qed.
Lemma handle_panic ev s r s' : handle ev s r = Panic s' -> s' = s /\ no_two_keys ev s.
Proof. intros H. apply handled_of in H. inversion H; subst; split; try done. by left. Qed.
Lemma no_two_keys_spec ev s : no_two_keys ev s ->
  (cfg_key_length (sv_config s) < 0 \/ Z.of_nat (slen (ev_rand ev)) < 2 * cfg_key_length (sv_config s))%Z.
Proof.
  intros H. destruct (Z.ltb_spec (cfg_key_length (sv_config s)) 0) as [|Hp]; [by left|]. right.
  destruct (Z.ltb_spec (Z.of_nat (slen (ev_rand ev))) (2 * cfg_key_length (sv_config s))) as [|Hl]; [done|]. exfalso.
  unfold no_two_keys, no_key, cfg_must_generate, must_generate, generate in H.
  assert ((cfg_key_length (sv_config s) <? 0)%Z = false) as Hn by lia. rewrite !Hn in H.
  destruct (read_full_spec (Z.to_nat (cfg_key_length (sv_config s))) (ev_rand ev)) as [(k & x & Hk & Hx & Hlen) _]; [lia|].
  rewrite Hk in H. destruct H as [H|(a & src & H1 & H2)]; [done|]. injection H1 as <- <-.
  destruct (read_full_spec (Z.to_nat (cfg_key_length (sv_config s))) x) as [(k' & x' & Hk' & Hx' & Hlen') _].
  { rewrite Hx, slen_app in Hl. lia. }
  by rewrite Hk' in H2.
Qed.
Lemma generate_short ev s : (Z.of_nat (slen (ev_rand ev)) < cfg_key_length (sv_config s))%Z ->
  cfg_must_generate (sv_config s) (ev_rand ev) = None.
Proof. intros H. apply c05_proof; lia. Qed.
Lemma c43_no_key : forall ev s r, (Z.of_nat (slen (ev_rand ev)) < cfg_key_length (sv_config s))%Z ->
  handle ev s r = Panic s \/ exists s' o, handle ev s r = Done s' o /\
    (forall t, o <> OToken t) /\ (forall c, o <> OCode c).
Proof.
  intros ev s r H. apply generate_short in H. destruct (handle ev s r) as [s' o|s'] eqn:E.
  - right. exists s', o. split; [done|]. apply handled_of in E. inversion E; subst; try done;
      try (match goal with H : issued_access _ _ _ _ _ _ _ _ |- _ => destruct H as (? & ? & Hx & _); congruence end);
      try (match goal with H : issued_both _ _ _ _ _ _ _ _ |- _ => destruct H as (? & ? & ? & ? & Hx & _); congruence end).
    congruence.
  - left. by apply handle_panic in E as [-> _].
Qed.
Lemma c43_no_second_key : forall ev s r s' t,
  (Z.of_nat (slen (ev_rand ev)) < 2 * cfg_key_length (sv_config s))%Z ->
  handle ev s r = Done s' (OToken t) -> tr_refresh_token t = "".
Proof.
  intros ev s r s' t Hl H. apply handled_of in H.
  assert (HB : forall sc c o k s1 t1, ~ issued_both ev s sc c o k s1 t1).
  { intros sc c o k s1 t1 (a & src & f & src' & H1 & H2 & _). unfold cfg_must_generate, must_generate, generate in H1, H2.
    destruct (cfg_key_length (sv_config s) <? 0)%Z eqn:En; [done|].
    destruct (Nat.ltb_spec (slen (ev_rand ev)) (Z.to_nat (cfg_key_length (sv_config s)))) as [Hs|Hs].
    { rewrite (proj2 (read_full_spec _ _) Hs) in H1. done. }
    destruct (proj1 (read_full_spec _ _) Hs) as (k0 & x & Hk & Hx & Hlen). rewrite Hk in H1. injection H1 as <- <-.
    rewrite (proj2 (read_full_spec _ _)) in H2; [done|]. rewrite Hx, slen_app in Hl. lia. }
  inversion H; subst; try (by exfalso; eapply HB).
  match goal with H : issued_access _ _ _ _ _ _ _ _ |- _ => destruct H as (? & ? & _ & -> & _) end. done.
Qed.

(** ** C44 *)
Lemma acts_token s r req c id : at_token s r req c -> acts_for r id -> tq_client_id req = id.
Proof.
  intros Hat Ha. apply at_token_facts in Hat as (He & _ & Hcc & _).
  destruct Ha as [[Ha _]|[_ ->]]; [apply endpoint_authorize in Ha; by apply not_authorize_token in Ha|]. by rewrite Hcc.
Qed.
Lemma acts_lookup seg s r req t id : seg <> "authorize" -> at_lookup seg s r req t -> acts_for r id -> lq_client_id req = id.
Proof.
  intros Hs Hat Ha. apply at_lookup_facts in Hat as (He & _ & Hcc & _).
  destruct Ha as [[Ha _]|[_ ->]]; [apply endpoint_authorize in Ha; congruence|]. by rewrite Hcc.
Qed.
Lemma c44_exact : forall ev s r id k c,
  acts_for r id -> cd_client_id c <> id ->
  let s' := res_server (handle ev s r) in
  (sv_access s !! k = Some c -> sv_access s' !! k = Some c \/
     (exists o, handle ev s r = Done s' o /\ hands_out_access (server_secret s) o k) \/
     (sv_access s' !! k = None /\ replays s r (cd_code c))) /\
  (sv_refresh s !! k = Some c -> sv_refresh s' !! k = Some c \/
     (exists o, handle ev s r = Done s' o /\ hands_out_refresh (server_secret s) o k) \/
     (sv_refresh s' !! k = None /\ replays s r (cd_code c))) /\
  (sv_codes s !! k = Some c -> sv_codes s' !! k = Some c \/
     exists o, handle ev s r = Done s' o /\ hands_out_code (server_secret s) o k).
Proof.
  intros ev s r id k c Ha Hc s'. unfold s'. clear s'.
  assert (H : handled ev s r (handle ev s r)) by apply handle_handled.
  assert (HT : forall ev0 s0 s1 t, (exists t0, t = set_token_redirect t0 (tr_redirect_uri t) (tr_state t) /\
     ((exists sc cl ow co, issued_access ev0 s0 sc cl ow co s1 t0) \/ (exists sc cl ow co, issued_both ev0 s0 sc cl ow co s1 t0))) ->
     forall k, (sv_access s1 !! k = sv_access s0 !! k \/ hands_out_access (server_secret s0) (OToken t) k) /\
               (sv_refresh s1 !! k = sv_refresh s0 !! k \/ hands_out_refresh (server_secret s0) (OToken t) k)).
  { intros ev0 s0 s1 t (t0 & Ht & [(sc & cl & ow & co & Hi)|(sc & cl & ow & co & Hi)]) k0.
    - apply issued_access_facts in Hi as (sg & Hn & _ & _ & _ & _ & ->). cbn. split; [|by left].
      destruct (decide (k0 = sg)) as [->|Hk]; [right|left; by rewrite lookup_insert_ne]. exists t. split; [done|]. by rewrite Ht.
    - apply issued_both_facts in Hi as (sg & sgf & Hn & Hnf & _ & _ & _ & ->). cbn. split.
      + destruct (decide (k0 = sg)) as [->|Hk]; [right|left; by rewrite lookup_insert_ne]. exists t. split; [done|]. by rewrite Ht.
      + destruct (decide (k0 = sgf)) as [->|Hk]; [right|left; by rewrite lookup_insert_ne]. exists t. split; [done|]. by rewrite Ht. }
  assert (HE : forall sc cl ow co s1 t, issued_both ev s sc cl ow co s1 t -> t = set_token_redirect t (tr_redirect_uri t) (tr_state t)).
  { intros sc cl ow co s1 t (? & ? & ? & ? & _ & _ & -> & _). done. }
  destruct H; cbn [res_server]; try (split_and!; by left).
  - match goal with H : issued_access _ _ _ _ _ _ _ _ |- _ => rename H into Hi end.
    edestruct (HT ev s s' (set_token_redirect t (aq_redirect_uri req) (aq_state req))) with k as [Hx1 Hx2];
      [exists t; split; [done|left; eauto 10]|].
    apply issued_access_facts in Hi as (sg & _ & _ & _ & _ & _ & ->).
    split_and!; [|by left|by left]. intros Hk. destruct Hx1 as [Hx1|Hx1]; [left; by rewrite Hx1|]. right. left. eauto.
  - split_and!; [by left|by left|]. intros Hk. cbn. destruct (decide (k = signature_string k0)) as [->|Hne].
    + right. eexists. split; [done|]. eexists. split; [done|]. cbn. by eapply generated_names.
    + left. by rewrite lookup_insert_ne.
  - match goal with H : issued_both _ _ _ _ _ _ _ _ |- _ => rename H into Hi end.
    edestruct (HT ev s s' t) with k as [Hx1 Hx2]; [exists t; split; [by eapply HE|right; eauto 10]|].
    assert (sv_codes s' = sv_codes s) as Hcd by (apply issued_both_facts in Hi as (? & ? & _ & _ & _ & _ & _ & ->); done).
    split_and!; intros Hk; [destruct Hx1 as [Hx1|Hx1]; [left; by rewrite Hx1|right; left; eauto]|destruct Hx2 as [Hx2|Hx2]; [left; by rewrite Hx2|right; left; eauto]|rewrite Hcd; eauto].
  - match goal with H : issued_both _ _ _ _ _ _ _ _ |- _ => rename H into Hi end.
    edestruct (HT ev s s' t) with k as [Hx1 Hx2]; [exists t; split; [by eapply HE|right; eauto 10]|].
    assert (sv_codes s' = sv_codes s) as Hcd by (apply issued_both_facts in Hi as (? & ? & _ & _ & _ & _ & _ & ->); done).
    split_and!; intros Hk; [destruct Hx1 as [Hx1|Hx1]; [left; by rewrite Hx1|right; left; eauto]|destruct Hx2 as [Hx2|Hx2]; [left; by rewrite Hx2|right; left; eauto]|rewrite Hcd; eauto].
  - match goal with H : issued_both _ _ _ _ _ _ _ _ |- _ => rename H into Hi end.
    edestruct (HT ev s s' t) with k as [Hx1 Hx2]; [exists t; split; [by eapply HE|right; eauto 10]|].
    match goal with H : at_token _ _ _ _ |- _ => pose proof (acts_token _ _ _ _ _ H Ha) as Hid end.
    split_and!; intros Hk; cbn; [destruct Hx1 as [Hx1|Hx1]; [left; by rewrite Hx1|right; left; eauto]|destruct Hx2 as [Hx2|Hx2]; [left; by rewrite Hx2|right; left; eauto]|].
    left. rewrite lookup_insert_ne; [done|]. intros <-. congruence.
  - match goal with H : at_token _ _ _ _ |- _ => pose proof (replay_replays _ _ _ _ _ _ H ltac:(eassumption) ltac:(eassumption) ltac:(eassumption) ltac:(eassumption)) as Hrep end.
    cbn. assert (HR : forall m : gmap string credential, m !! k = Some c ->
      revoke_code (signature_string k0) m !! k = Some c \/ (revoke_code (signature_string k0) m !! k = None /\ replays s r (cd_code c))).
    { intros m Hm. destruct (decide (cd_code c = signature_string k0)) as [E|E].
      - right. rewrite E. split; [|done]. destruct (revoke_code (signature_string k0) m !! k) as [x|] eqn:Ex; [|done].
        apply (revoke_code_without (signature_string k0) m) in Ex as [Ex Hx]. congruence.
      - left. by apply (revoke_code_without (signature_string k0) m). }
    split_and!; [| |by left]; intros Hk; destruct (HR _ Hk) as [?|?]; [by left|by right; right|by left|by right; right].
  - match goal with H : issued_both _ _ _ _ _ _ _ _ |- _ => rename H into Hi end.
    edestruct (HT ev s s' t) with k as [Hx1 Hx2]; [exists t; split; [by eapply HE|right; eauto 10]|].
    match goal with H : at_token _ _ _ _ |- _ => pose proof (acts_token _ _ _ _ _ H Ha) as Hid end.
    assert (sv_codes s' = sv_codes s) as Hcd by (apply issued_both_facts in Hi as (? & ? & _ & _ & _ & _ & _ & ->); done).
    split_and!; intros Hk; cbn; [destruct Hx1 as [Hx1|Hx1]; [left; by rewrite Hx1|right; left; eauto]| |rewrite Hcd; eauto].
    rewrite lookup_delete_ne by (intros <-; congruence). destruct Hx2 as [Hx2|Hx2]; [left; by rewrite Hx2|right; left; eauto].
  - match goal with H : at_lookup _ _ _ _ _ |- _ => pose proof (acts_lookup _ _ _ _ _ _ (ltac:(done) : "revoke" <> "authorize") H Ha) as Hid end.
    cbn. split_and!; [| |by left]; intros Hk; left; rewrite lookup_delete_ne; [done| |done|]; intros <-;
      match goal with H : forall x, _ !! _ = Some x -> _ |- _ => apply H in Hk; congruence end.
  - match goal with H : at_lookup _ _ _ _ _ |- _ => pose proof (acts_lookup _ _ _ _ _ _ (ltac:(done) : "revoke" <> "authorize") H Ha) as Hid end.
    cbn. split_and!; [|by left|by left]. intros Hk. left. rewrite lookup_delete_ne; [done|]. intros <-. congruence.
Qed.
Lemma c44_others : forall ev s r id k c,
  acts_for r id -> (forall sg, ~ replays s r sg) -> cd_client_id c <> id ->
  let s' := res_server (handle ev s r) in
  (sv_access s !! k = Some c -> sv_access s' !! k = Some c \/
     exists o, handle ev s r = Done s' o /\ hands_out_access (server_secret s) o k) /\
  (sv_refresh s !! k = Some c -> sv_refresh s' !! k = Some c \/
     exists o, handle ev s r = Done s' o /\ hands_out_refresh (server_secret s) o k) /\
  (sv_codes s !! k = Some c -> sv_codes s' !! k = Some c \/
     exists o, handle ev s r = Done s' o /\ hands_out_code (server_secret s) o k).
Proof.
  intros ev s r id k c Ha Hnr Hc s'. destruct (c44_exact ev s r id k c Ha Hc) as (H1 & H2 & H3).
  split_and!; [| |done]; intros Hk.
  - destruct (H1 Hk) as [?|[?|[_ Hr]]]; [by left|by right|]. by apply Hnr in Hr.
  - destruct (H2 Hk) as [?|[?|[_ Hr]]]; [by left|by right|]. by apply Hnr in Hr.
Qed.
