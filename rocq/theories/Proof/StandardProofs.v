(** Proofs about the standards (C89 to C96). *)
From Verif.Model Require Import Server.
From Verif.Spec Require Import TokenSpec ScopeSpec WireSpec RequestSpec ServerSpec RefusalSpec FormSpec StandardSpec.
From Verif.Spec Require BuilderSpec.
From Verif.Proof Require Import StrFacts Base64Facts HsFacts TokenProofs UrlFacts UrlParse JsonFacts ScopeFacts
  ScopeProofs WireFacts WireProofs Redirect ServerFacts Steps RequestProofs RequestParse ServerProofs GrantProofs EffectProofs
  MediaProofs FormProofs RefusalProofs.

Lemma serves_one ev s r w w' : serves ev s r w -> serves ev s r w' -> w = w'.
Proof. intros [s1 H1] [s2 H2]. congruence. Qed.

(** ** C89: tokens that are not valid *)
Lemma refused_not_200 ev s r refusal code name w : refuses_with ev s r refusal -> refusal code name -> code <> 200%Z ->
  serves ev s r w -> status w <> 200%Z.
Proof.
  intros [H1 _] Hr Hc Hw Hs. destruct (H1 code name Hr) as (w' & Hw' & Hd & _).
  rewrite (serves_one _ _ _ _ _ Hw Hw') in Hs. congruence.
Qed.
Lemma not_foreign s r id sg : names (server_secret s) (body_param r "token") sg ->
  ~ foreign_token s (body_param r "token") id ->
  (forall a, sv_access s !! sg = Some a -> cd_client_id a = id) /\ (forall f, sv_refresh s !! sg = Some f -> cd_client_id f = id).
Proof.
  intros Hn Hf. split; intros x Hx; destruct (decide (cd_client_id x = id)) as [?|Hne]; try done; destruct Hf; exists x; (split; [|done]);
    [left|right]; by exists sg.
Qed.
Lemma c89_revoke : forall ev s r id, complete_revocation r -> from_client s r id ->
  ((exists w, serves ev s r w /\ status w = 200%Z) <->
   authentic s (body_param r "token") /\ ~ foreign_token s (body_param r "token") id).
Proof.
  intros ev s r id Hc Hf. pose proof (c84_revoke ev s r (proj1 Hc)) as H84. split.
  - intros (w & Hw & Hs). split.
    + destruct (parse_token (cfg_secret (sv_config s)) (body_param r "token")) as [t|msg] eqn:Et; [apply authentic_spec; eauto|].
      exfalso. refine (refused_not_200 ev s r _ 400 "invalid_request" w H84 _ _ Hw Hs); [|done].
      apply (refuse_lookup_text _ _ id); [exact (proj2 Hc)|done|]. rewrite authentic_spec, Et. by intros [? ?].
    + intros Hx. refine (refused_not_200 ev s r _ 401 "invalid_client" w H84 _ _ Hw Hs); [|done].
      apply (refuse_lookup_owner _ _ id); [exact (proj2 Hc)|done|done].
  - intros [[sg Hn] Hx]. destruct (not_foreign s r id sg Hn Hx) as [Ha Hr].
    destruct (c46_own ev s r id sg Hc Hf Hn Ha Hr) as (s' & Hh & _).
    destruct (revoked_wire ev s r s' Hh) as (w & Hw & Hs & _). exists w. split; [by exists s'|done].
Qed.
Lemma intro_served ev s r s' x : handle ev s r = Done s' (OIntro x) -> exists w, serves ev s r w /\ status w = 200%Z.
Proof.
  intros Hh. destruct (write_answer (OIntro x)) as (w & Hw & _); [by eapply handle_answer|].
  assert (Hs : serve_http ev s r new_rw = (s', Some w)) by (unfold serve_http; by rewrite Hh, Hw).
  exists w. split; [by exists s'|]. destruct (serve_sent _ _ _ _ _ Hs) as (o & Ho & _ & Hk). rewrite Hh in Ho. injection Ho as <-.
  by inversion Hk.
Qed.
Lemma c89_introspect : forall ev s r id, complete_introspection r -> from_client s r id ->
  ((exists w, serves ev s r w /\ status w = 200%Z) <->
   authentic s (body_param r "token") /\ ~ foreign_token s (body_param r "token") id).
Proof.
  intros ev s r id Hc Hf. pose proof (c84_introspect ev s r (proj1 Hc)) as H84. split.
  - intros (w & Hw & Hs). split.
    + destruct (parse_token (cfg_secret (sv_config s)) (body_param r "token")) as [t|msg] eqn:Et; [apply authentic_spec; eauto|].
      exfalso. refine (refused_not_200 ev s r _ 400 "invalid_request" w H84 _ _ Hw Hs); [|done].
      apply (refuse_lookup_text _ _ id); [exact (proj2 Hc)|done|]. rewrite authentic_spec, Et. by intros [? ?].
    + intros Hx. refine (refused_not_200 ev s r _ 401 "invalid_client" w H84 _ _ Hw Hs); [|done].
      apply (refuse_lookup_owner _ _ id); [exact (proj2 Hc)|done|done].
  - intros [[sg Hn] Hx]. destruct (not_foreign s r id sg Hn Hx) as [Ha Hr].
    destruct (c47_answer ev s r id sg Hc Hf Hn) as (H0 & H1 & H2 & _).
    destruct (sv_refresh s !! sg) as [f|] eqn:Ef.
    + destruct (H2 f eq_refl (Hr f eq_refl) Ha) as (x & Hh & _). by eapply intro_served.
    + destruct (sv_access s !! sg) as [a|] eqn:Ea.
      * destruct (H1 a eq_refl eq_refl (Ha a eq_refl)) as (x & Hh & _). by eapply intro_served.
      * destruct (H0 eq_refl eq_refl) as (x & Hh & _). by eapply intro_served.
Qed.
Lemma c89_unknown : forall ev s r id, complete_introspection r -> from_client s r id -> authentic s (body_param r "token") ->
  (forall d, ~ access_token s (body_param r "token") d /\ ~ refresh_token s (body_param r "token") d) ->
  exists w o, serves ev s r w /\ status w = 200%Z /\ json_object w o /\ In ("active", JBool false) o.
Proof.
  intros ev s r id Hc Hf [sg Hn] Hx.
  destruct (c47_answer ev s r id sg Hc Hf Hn) as (H0 & _).
  destruct H0 as (x & Hh & Hr).
  { destruct (sv_access s !! sg) as [d|] eqn:E; [|done]. destruct (Hx d) as [H _]. destruct H. by exists sg. }
  { destruct (sv_refresh s !! sg) as [d|] eqn:E; [|done]. destruct (Hx d) as [_ H]. destruct H. by exists sg. }
  assert (Hs : serve_http ev s r new_rw = (s, Some (sent_document 200 (introspection_json x)))).
  { unfold serve_http. rewrite Hh, Hr. reflexivity. }
  exists (sent_document 200 (introspection_json x)), [("active", JBool false)].
  split; [by exists s|]. split; [done|]. split; [|by left]. rewrite Hr. split; [vm_compute; reflexivity|apply NoDup_singleton].
Qed.

(** ** Requests with the same parameters *)
Lemma same_parameters ev s r r' f f' : same_but_fields r r' -> parse_form r = Some f -> parse_form r' = Some f' ->
  (forall k, vget (f_post f') k = vget (f_post f) k) -> (forall k, vget (f_form f') k = vget (f_form f) k) ->
  handle ev s r' = handle ev s r.
Proof.
  intros (Hm & Hp & Ha) Hf Hf' H1 H2.
  assert (Hb : basic_auth r' = basic_auth r) by (unfold basic_auth; by rewrite Ha).
  assert (parse_token_request r' = parse_token_request r) as Ht.
  { unfold parse_token_request. rewrite Hm, Hf, Hf', Hb, !H1. done. }
  assert (parse_lookup_request r' = parse_lookup_request r) as Hl.
  { unfold parse_lookup_request. rewrite Hm, Hf, Hf', Hb, !H1. done. }
  assert (parse_authorization_request r' = parse_authorization_request r) as Hz.
  { unfold parse_authorization_request. rewrite Hm, Hf, Hf', !H2. done. }
  assert (forall k, vget (post_form r') k = vget (post_form r) k) as Hv.
  { intros k. unfold post_form. rewrite Hf, Hf'. done. }
  unfold handle, authorization_endpoint, token_endpoint, introspection_endpoint, revocation_endpoint, lookup_prologue,
    parse_introspection_request, parse_revocation_request.
  rewrite Hp, Ht, Hl, Hz, Hm. destruct (parse_authorization_request r); [|done]. rewrite !Hv. done.
Qed.
Lemma same_served ev s r r' w : handle ev s r' = handle ev s r -> serve_http ev s r' w = serve_http ev s r w.
Proof. intros H. unfold serve_http. by rewrite H. Qed.

(** ** C90: repetitions *)
Lemma written_front k front back : In k (map fst front) -> written k (front ++ back) = written k front.
Proof.
  induction front as [|[k' v] front IH]; [intros []|]. cbn [map fst app written]. intros [->|H].
  - by rewrite String.eqb_refl.
  - destruct (String.eqb k' k); [done|]. by apply IH.
Qed.
Lemma written_skip k front k' v back : k' <> k \/ In k (map fst front) ->
  written k (front ++ (k', v) :: back) = written k (front ++ back).
Proof.
  intros H. induction front as [|[j x] front IH].
  - cbn [app written]. destruct (String.eqb_spec k' k) as [->|]; [|done]. by destruct H as [H|[]].
  - cbn [app written map fst] in *. destruct (String.eqb_spec j k) as [->|Hn]; [done|]. apply IH.
    destruct H as [H|[H|H]]; [by left|done|by right].
Qed.
Lemma written_repetitions k l l' : with_repetitions l l' -> written k l' = written k l.
Proof.
  induction 1 as [|front k' v back H IH Hi]; [done|]. rewrite written_skip; [done|].
  destruct (decide (k' = k)) as [->|]; [by right|by left].
Qed.
Lemma carries_params r body query : carries r body query -> exists f, parse_form r = Some f /\
  forall k, vget (f_post f) k = written k body /\ vget (f_form f) k = written k (body ++ query).
Proof.
  intros H. eexists. split; [exact (carries_form _ _ _ H)|]. intros k. cbn [f_post f_form].
  split; [apply vget_written|apply merge_written].
Qed.
Lemma c90_first : forall ev s r r' body query body' query' w,
  carries r body query -> carries r' body' query' -> same_but_fields r r' ->
  with_repetitions body body' -> with_repetitions (body ++ query) (body' ++ query') ->
  serve_http ev s r' w = serve_http ev s r w.
Proof.
  intros ev s r r' body query body' query' w H H' Hs Hb Hq. apply same_served.
  destruct (carries_params _ _ _ H) as (f & Hf & Hk), (carries_params _ _ _ H') as (f' & Hf' & Hk').
  apply (same_parameters ev s r r' f f' Hs Hf Hf'); intros k.
  - rewrite (proj1 (Hk k)), (proj1 (Hk' k)). by apply written_repetitions.
  - rewrite (proj2 (Hk k)), (proj2 (Hk' k)). by apply written_repetitions.
Qed.

(** ** C90: two ways to authenticate *)
Lemma written_client k body : k <> "client_id" -> k <> "client_secret" -> written k (without_client body) = written k body.
Proof.
  intros H1 H2. unfold without_client. induction body as [|[j v] body IH]; [done|]. cbn [List.filter fst].
  destruct (String.eqb_spec j "client_id") as [->|Hi]; cbn [orb negb written].
  { destruct (String.eqb_spec "client_id" k) as [<-|]; [done|]. exact IH. }
  destruct (String.eqb_spec j "client_secret") as [->|Hj]; cbn [orb negb written].
  { destruct (String.eqb_spec "client_secret" k) as [<-|]; [done|]. exact IH. }
  destruct (String.eqb j k); [done|]. exact IH.
Qed.
Lemma c90_header : forall ev s r r' body query w,
  carries r body query -> carries r' (without_client body) query -> same_but_fields r r' ->
  (exists id secret, basic_header r id secret) -> ~ endpoint r "authorize" ->
  serve_http ev s r' w = serve_http ev s r w.
Proof.
  intros ev s r r' body query w H H' Hs (id & secret & Hb) He. apply same_served. pose proof Hs as (Hm & Hp & Ha).
  apply carries_form in H, H'.
  assert (HB : basic_auth r = Some (id, secret)) by (by apply basic_auth_spec).
  assert (HB' : basic_auth r' = Some (id, secret)) by (unfold basic_auth; rewrite Ha; exact HB).
  assert (parse_token_request r' = parse_token_request r) as Ht.
  { unfold parse_token_request. rewrite Hm, H, H', HB, HB'. cbv zeta. cbn [f_post]. rewrite !vget_written, !written_client by done. done. }
  assert (parse_lookup_request r' = parse_lookup_request r) as Hl.
  { unfold parse_lookup_request. rewrite Hm, H, H', HB, HB'. cbv zeta. cbn [f_post]. rewrite !vget_written, !written_client by done. done. }
  unfold handle, token_endpoint, introspection_endpoint, revocation_endpoint, lookup_prologue,
    parse_introspection_request, parse_revocation_request.
  rewrite Hp, Ht, Hl. rewrite endpoint_authorize in He. apply seqb_false in He. rewrite He. done.
Qed.

(** ** C91: the header *)
Lemma stands_unencoded x y : stands_for x y -> unencoded x -> x = y.
Proof.
  intros H [Hp Hq]. induction H as [|s t H IH|h l a b s t _ _ _ _|c s t H1 H2 H IH]; [done| | |].
  - exfalso. apply Hp. by left.
  - exfalso. apply Hq. by left.
  - f_equal. apply IH; intros Hi; [apply Hp|apply Hq]; by right.
Qed.
Lemma basic_credentials r id secret : basic_header r id secret -> client_credentials r = (id, secret).
Proof. intros H. unfold client_credentials. apply basic_auth_spec in H. by rewrite H. Qed.
Lemma c91_verbatim : forall s r id secret id', basic_header r id secret ->
  (from_client s r id' <-> id' = id /\ authenticates s id secret).
Proof.
  intros s r id secret id' H. apply basic_credentials in H. unfold from_client. rewrite H. split.
  - intros (x & Hx & Ha). by injection Hx as -> ->.
  - intros [-> Ha]. eauto.
Qed.
Lemma c91_partial : forall s r x y id secret, basic_header r x y -> stands_for x id -> stands_for y secret ->
  unencoded x -> unencoded y -> authenticates s id secret -> from_client s r id.
Proof.
  intros s r x y id secret H Hx Hy Ux Uy Ha. apply stands_unencoded in Hx, Hy; [|done..]. subst.
  exists secret. split; [by apply basic_credentials|done].
Qed.

Lemma built_header uri vals id secret r : build_post uri vals id secret = Some r -> without ":" id ->
  id <> "" \/ secret <> "" -> basic_header r id secret.
Proof.
  intros H Hc Hne. unfold build_post in H. destruct (url_parse uri) as [u|]; [|done].
  injection H as <-. apply basic_auth_spec. unfold basic_auth. cbn [rq_auth].
  assert (negb (seqb id "") || negb (seqb secret "") = true) as ->.
  { destruct Hne as [Hne|Hne]; apply seqb_false in Hne; rewrite Hne; [done|]. by rewrite orb_true_r. }
  destruct (basic_header_parse id secret Hc) as [H1 H2]. by rewrite H2, H1.
Qed.
Lemma c91_sent : forall uri q r, build_token_request uri q = Some r -> without ":" (tq_client_id q) ->
  tq_client_id q <> "" \/ tq_client_secret q <> "" -> basic_header r (tq_client_id q) (tq_client_secret q).
Proof. intros uri q r. apply built_header. Qed.
Lemma c91_sent_lookups : forall uri q r, build_introspection_request uri q = Some r \/ build_revocation_request uri q = Some r ->
  without ":" (lq_client_id q) -> lq_client_id q <> "" \/ lq_client_secret q <> "" ->
  basic_header r (lq_client_id q) (lq_client_secret q).
Proof. intros uri q r [H|H]; exact (built_header _ _ _ _ _ H). Qed.

(** ** C92 *)
Lemma names_nonempty secret str sg : names secret str sg -> str <> "".
Proof. intros (s0 & s1 & k & (Hs & _) & _) ->. symmetry in Hs. by destruct s0. Qed.
Lemma c92_every : forall ev s r s' t, handle ev s r = Done s' (OToken t) ->
  (endpoint r "token" -> tr_refresh_token t <> "" /\
     ((forall d, ~ refresh_token s (tr_refresh_token t) d) ->
      exists d, refresh_token s' (tr_refresh_token t) d /\ cd_client_id d = fst (client_credentials r))) /\
  (endpoint r "authorize" -> tr_refresh_token t = "").
Proof.
  intros ev s r s' t H. destruct (c58_tokens ev s r s' t H) as (a & _ & Hact & _ & _ & Hf).
  assert (HT : tr_refresh_token t <> "" -> endpoint r "token" -> tr_refresh_token t <> "" /\
     ((forall d, ~ refresh_token s (tr_refresh_token t) d) ->
      exists d, refresh_token s' (tr_refresh_token t) d /\ cd_client_id d = fst (client_credentials r))).
  { intros Hne He. split; [done|]. intros Hd. destruct (Hf Hne Hd) as (f & Hf1 & Hf2 & _). exists f. split; [done|].
    rewrite Hf2. destruct Hact as [[Hx _]|[_ Hx]]; [|done].
    apply endpoint_token in He. apply endpoint_authorize in Hx. congruence. }
  apply handled_of in H. inversion H; subst.
  1: { match goal with H : issued_access _ _ _ _ _ _ _ _ |- _ => apply issued_access_facts in H as (sg & Hn & Hr & _) end.
    match goal with H : at_authorize _ _ _ _ |- _ => destruct H as (He & _) end.
    split; [intros Hx; apply endpoint_token in Hx; congruence|]. intros _. exact Hr. }
  all: match goal with H : issued_both _ _ _ _ _ _ _ _ |- _ => apply issued_both_facts in H as (sg & sgf & Hn & Hnf & _) end;
    match goal with H : at_token _ _ _ _ |- _ => apply at_token_facts in H as (He & _) end;
    (split; [apply HT; by eapply names_nonempty|intros Hx; exfalso; rewrite endpoint_authorize in Hx; by apply not_authorize_token in Hx]).
Qed.

(** ** C93 *)
Lemma parsed_grant r q : parse_token_request r = inl q -> body_param r "grant_type" <> "".
Proof. intros H. apply GrantProofs.parse_token_inl in H as (_ & _ & Hg & _ & _ & _ & _ & _ & _ & _ & Hn). by rewrite <- Hg. Qed.
Lemma c93_refusal ev s r code name : token_refusal ev s r code name -> conforms ev s r code name \/ deviates ev s r code name.
Proof.
  intros H. assert (Hst : forall n, standard_status n 400) by (by left).
  inversion H as [Hq|Hg|Hc Hu|id Hr Hp|id Hr Hp Hs|id Hr Hp|id c Hr Hc Hp Hs|id Hr Ha|id Hr Ha Hn|id Hr Ha|id Hr Ha Hn|id d Hr Hd Hs]; subst.
  - left. split; [by apply fault_malformed|done].
  - destruct (parse_token_request r) as [q|e] eqn:Eq; [right; by eapply deviates_grant_type|].
    left. split; [|done]. apply fault_malformed. rewrite Eq. by intros [? ?].
  - left. split; [by apply fault_client|by right].
  - right. by eapply deviates_password.
  - left. split; [|done]. apply fault_scope; [done|]. rewrite (proj2 (proj2 Hr)). by left.
  - right. by eapply deviates_public.
  - left. split; [|done]. apply fault_scope; [done|]. rewrite (proj2 (proj2 Hr)). by right; left.
  - destruct (decide (body_param r "code" = "")) as [He|He]; [|right; by eapply deviates_code].
    left. split; [|done]. apply fault_missing. right; right; left. split; [exact (proj2 (proj2 Hr))|done].
  - left. split; [|done]. by eapply fault_code.
  - destruct (decide (body_param r "refresh_token" = "")) as [He|He]; [|right; by eapply deviates_refresh].
    left. split; [|done]. apply fault_missing. right; right; right. split; [exact (proj2 (proj2 Hr))|done].
  - left. split; [|done]. by eapply fault_refresh.
  - left. split; [|done]. eapply fault_refresh_scope; [done|exact (proj2 (proj2 Hr))|done].
Qed.
Lemma deviates_refusal ev s r code name : deviates ev s r code name -> token_refusal ev s r code name.
Proof.
  intros H. inversion H; subst.
  - by apply refuse_grant_type.
  - by eapply refuse_password.
  - by eapply refuse_public.
  - by eapply refuse_code_text.
  - by eapply refuse_refresh_text.
Qed.
Lemma parsed_not_malformed r s id g : token_request_for s r id g -> exists q, parse_token_request r = inl q.
Proof. intros ((_ & Hq & _) & _). exact Hq. Qed.
Lemma deviates_not_conforms ev s r code name : deviates ev s r code name -> ~ conforms ev s r code name.
Proof.
  intros H [Hf Hs]. inversion H as [q Hq Hg|id Hr Hp|id Hr Hp|id Hr He Ha|id Hr He Ha]; subst.
  - inversion Hf as [Hm|Hl| | | | | | | |]; subst; [destruct Hm; eauto|].
    destruct Hl as [Hl|[[Hl _]|[[Hl _]|[Hl _]]]].
    + by apply (parsed_grant r q Hq).
    + apply Hg. rewrite Hl. by left.
    + apply Hg. rewrite Hl. by right; right; left.
    + apply Hg. rewrite Hl. by right; right; right; left.
  - inversion Hf.
  - inversion Hf as [| |Hu| | | | | | |]; subst. exact (Hu id (proj1 (proj2 Hr))).
  - destruct (parsed_not_malformed _ _ _ _ Hr) as [q Hq].
    inversion Hf as [Hm|Hl| | | | | | | |]; subst; [destruct Hm; eauto|].
    pose proof (proj2 (proj2 Hr)) as Hg. destruct Hl as [Hl|[[Hl _]|[[_ Hl]|[Hl _]]]]; congruence.
  - destruct (parsed_not_malformed _ _ _ _ Hr) as [q Hq].
    inversion Hf as [Hm|Hl| | | | | | | |]; subst; [destruct Hm; eauto|].
    pose proof (proj2 (proj2 Hr)) as Hg. destruct Hl as [Hl|[[Hl _]|[[Hl _]|[_ Hl]]]]; congruence.
Qed.
Lemma c93_partial : forall ev s r w, endpoint r "token" -> serves ev s r w ->
  status w = 200%Z \/ exists code name, error_document w code name /\
    (conforms ev s r code name \/ deviates ev s r code name).
Proof.
  intros ev s r w He Hw. destruct (c84_token ev s r He) as [H1 H2]. destruct (H2 w Hw) as [H|[H|(code & name & Hr & Hd)]]; [by left| |].
  - exfalso. destruct Hw as [s' Hw]. destruct (header_values w "Location") as [|loc locs] eqn:El; [done|].
    destruct (redirected_full _ _ _ _ _ _ _ Hw El) as (req & c & params & (Hat & _) & _).
    apply endpoint_token in He. congruence.
  - right. exists code, name. split; [done|]. by apply c93_refusal.
Qed.
Lemma c93_exact : forall ev s r code name, endpoint r "token" -> deviates ev s r code name ->
  (exists w, serves ev s r w /\ error_document w code name) /\ ~ conforms ev s r code name.
Proof.
  intros ev s r code name He H. split; [|by apply deviates_not_conforms].
  destruct (c84_token ev s r He) as [H1 _]. apply H1. by apply deviates_refusal.
Qed.

Lemma c93_challenge : forall ev s r w, serves ev s r w ->
  (status w = 401%Z -> header_values w "Www-Authenticate" = ["Basic realm=" +:+ BuilderSpec.in_quotes "OAuth2"]) /\
  (status w <> 401%Z -> header_values w "Www-Authenticate" = []).
Proof.
  intros ev s r w [s' Hw]. destruct (serve_sent _ _ _ _ _ Hw) as (o & Hh & _ & Ho).
  unfold serve_http in Hw. rewrite Hh in Hw. injection Hw as Hw. inversion Ho; subst.
  - match goal with A : plain_error e |- _ => destruct (write_plain e A) as (w' & Hw' & Hs & _ & Hc & _); destruct A as (d & _ & A) end.
    rewrite Hw in Hw'. injection Hw' as <-. rewrite Hs, Hc.
    destruct H as [-> | [-> | [-> | [-> | [-> | ->]]]]]; cbn [e_status e_name InvalidRequest InvalidClient InvalidGrant InvalidScope AccessDenied UnsupportedTokenType];
      (destruct (decide _) as [E|E]; [try discriminate E|try (by destruct E)]); split; intros; try done; try lia.
  - rewrite redirect_header, location_headers_lookup. split; intros H'; [discriminate H'|done].
  - split; intros H'; [discriminate H'|vm_compute; reflexivity].
  - rewrite redirect_header, location_headers_lookup. split; intros H'; [discriminate H'|done].
  - rewrite redirect_header, location_headers_lookup. split; intros H'; [discriminate H'|done].
  - split; intros H'; [discriminate H'|vm_compute; reflexivity].
  - split; intros H'; [discriminate H'|vm_compute; reflexivity].
  - split; intros H'; [discriminate H'|vm_compute; reflexivity].
  - split; intros H'; [discriminate H'|]. unfold header_values. cbn. destruct H as [_ ->]. done.
Qed.

(** ** C94 *)
Lemma well_addressed_parses s r c : well_addressed s r c -> form_param r "response_type" <> "" ->
  exists q, parse_authorization_request r = inl q.
Proof.
  intros (Hm & Hid & Hc & Hu & Hne & (p & Hp & Hf)) Hrt. unfold form_param in *.
  unfold parse_authorization_request. destruct (parse_form r) as [f|]; [|done].
  assert (negb (seqb (rq_method r) "GET") && negb (seqb (rq_method r) "POST") = false) as ->.
  { destruct Hm as [<-|[<-|[]]]; reflexivity. }
  cbv zeta. apply seqb_false in Hrt, Hid, Hne. rewrite Hrt, Hid, Hu, Hne, Hp, Hf. eauto.
Qed.
Lemma c94_address : forall ev s r w, serves ev s r w -> header_values w "Location" <> [] -> exists c, well_addressed s r c.
Proof.
  intros ev s r w [s' Hw] Hl. destruct (header_values w "Location") as [|loc locs] eqn:El; [done|].
  destruct (redirected_full _ _ _ _ _ _ _ Hw El) as (req & c & params & Hat & Hm & _). exists c.
  pose proof (at_authorize_uri _ _ _ _ Hat) as (Hne & _ & Hid & Hu & _).
  destruct Hat as (_ & Hp & _ & Hcl & Hr).
  assert (Hp' := Hp). apply parse_authorization_inl in Hp' as (_ & (f & Hf & _ & _ & _ & _ & Hcid & _) & _).
  unfold parse_authorization_request in Hp. rewrite Hf in Hp.
  destruct (negb (seqb (rq_method r) "GET") && negb (seqb (rq_method r) "POST")); [done|]. cbv zeta in Hp.
  destruct (seqb (vget (f_form f) "response_type") ""); [done|].
  destruct (seqb (vget (f_form f) "client_id") "") eqn:Ei; [done|].
  destruct (query_unescape (vget (f_form f) "redirect_uri")) as [u|] eqn:Eu; [|done].
  destruct (seqb u "") eqn:En; [done|]. destruct (parse_request_uri u) as [p|] eqn:Ep; [|done].
  destruct (seqb (u_fragment p) "") eqn:Ef; [|done]. cbn [negb] in Hp. injection Hp as Hp.
  assert (Hx : u = aq_redirect_uri req) by (by rewrite <- Hp).
  split; [rewrite Hm; by right; left|]. split; [unfold form_param; rewrite Hf; by apply seqb_false|].
  split; [by rewrite Hid|]. split; [by rewrite Hu, Hr|]. rewrite Hr. split; [done|]. exists p. rewrite <- Hx. split; [done|by apply seqb_true].
Qed.
Lemma c94_exact : forall ev s r c w, endpoint r "authorize" -> well_addressed s r c -> serves ev s r w ->
  (~ In (form_param r "response_type") response_types -> error_document w 400 "invalid_request") /\
  (In (form_param r "response_type") response_types -> rq_method r = "GET" -> status w = 200%Z) /\
  (In (form_param r "response_type") response_types -> rq_method r = "POST" -> header_values w "Location" <> []).
Proof.
  intros ev s r c w He Ha Hw. destruct (c84_authorize ev s r He) as [H1 H2].
  assert (Hno : In (form_param r "response_type") response_types -> forall code name, ~ authorization_refusal s r code name).
  { intros Hin code name Hr. assert (form_param r "response_type" <> "") as Hne.
    { destruct Hin as [<-|[<-|[]]]; discriminate. }
    destruct (well_addressed_parses s r c Ha Hne) as [q Hq]. destruct Ha as (_ & _ & Hc & Hu & _).
    inversion Hr; subst; try contradiction; try congruence; eauto. }
  split; [|split].
  - intros Hn. destruct (H1 400%Z "invalid_request") as (w' & Hw' & Hd); [by apply refuse_response_type|].
    by rewrite (serves_one _ _ _ _ _ Hw Hw').
  - intros Hin Hg. destruct (H2 w Hw) as [?|[Hl|(code & name & Hr & _)]]; [done| |by destruct (Hno Hin _ _ Hr)].
    destruct (header_values w "Location") as [|loc locs] eqn:El; [done|]. destruct Hw as [s' Hw].
    destruct (redirected_full _ _ _ _ _ _ _ Hw El) as (req & c' & params & _ & Hm & _). congruence.
  - intros Hin Hg. destruct (H2 w Hw) as [Hs|[Hl|(code & name & Hr & _)]]; [|done|by destruct (Hno Hin _ _ Hr)].
    destruct Hw as [s' Hw]. destruct (serve_sent _ _ _ _ _ Hw) as (o & Hh & _ & Ho). apply endpoint_authorize in He.
    pose proof (handled_of _ _ _ _ Hh) as Hd.
    inversion Ho; subst; try (by rewrite redirect_location_header); exfalso; inversion Hd; subst;
      try (match goal with A : at_token _ _ _ _ |- _ => destruct A as [A _] | A : at_lookup _ _ _ _ _ |- _ => destruct A as [A _] end; congruence);
      try congruence.
    all: try (match goal with A : plain_error _ |- _ => destruct A as (d & _ & [-> | [-> | [-> | [-> | [-> | ->]]]]]); discriminate Hs end).
    all: try discriminate Hs.
    match goal with A : at_authorize _ _ _ _ |- _ => destruct (at_authorize_uri _ _ _ _ A) as (Hne & _) end.
    cbn [tr_redirect_uri set_token_redirect] in *. congruence.
Qed.
Lemma c94_missing_uri : forall ev s r, endpoint r "authorize" -> form_param r "redirect_uri" = "" ->
  exists w, serves ev s r w /\ error_document w 400 "invalid_request".
Proof.
  intros ev s r He Hu. destruct (c84_authorize ev s r He) as [H _]. apply H. apply refuse_authorization_malformed.
  intros (q & Hq). apply parse_authorization_inl in Hq as (_ & (f & Hf & _ & _ & _ & _ & _ & H4 & _) & Hne & _).
  unfold form_param in Hu. rewrite Hf in Hu. rewrite Hu in H4. change (query_unescape "") with (Some "") in H4. congruence.
Qed.

(** ** C95 *)
Lemma c95_partial : forall ev s r s' sg, handle ev s r = Done s' ORevoked -> names (server_secret s) (body_param r "token") sg ->
  (forall now r' str required w, bearer r' str -> ~ names (server_secret s) str sg ->
     authorize now s' r' required w = authorize now s r' required w) /\
  (forall str d, ~ names (server_secret s) str sg -> (refresh_token s' str d <-> refresh_token s str d)).
Proof.
  intros ev s r s' sg Hh Hn. pose proof (handled_of _ _ _ _ Hh) as Hd. inversion Hd; subst.
  match goal with A : at_lookup _ _ _ _ _ |- _ => rename A into Hat end.
  assert (sg = signature_string t) as ->.
  { destruct (at_lookup_facts _ _ _ _ _ Hat) as (_ & _ & _ & _ & Hn'). exact (names_fun _ _ _ _ Hn Hn'). }
  split.
  - intros now r' str required w Hb Hnn. apply bearer_spec in Hb. unfold authorize, authorize_decision.
    rewrite Hb. cbn [sv_config sv_access]. destruct (parse_token (cfg_secret (sv_config s)) str) as [u|] eqn:Eu; [|done].
    rewrite lookup_delete_ne; [done|]. intros Heq. apply Hnn. rewrite Heq. by apply names_parsed.
  - intros str d Hnn. unfold refresh_token, server_secret. cbn [sv_config sv_refresh]. split; intros (sg & G1 & G2); exists sg; (split; [done|]).
    + by apply lookup_delete_Some in G2 as [_ G2].
    + apply lookup_delete_Some. split; [|done]. intros Hx. apply Hnn. by rewrite Hx.
Qed.

(** ** C96 *)
Lemma c96_partial : forall ev s r id, token_request_for s r id "refresh_token" ->
  (forall d, ~ refresh_token s (body_param r "refresh_token") d) ->
  exists w, serve_http ev s r new_rw = (s, Some w) /\
    (error_document w 400 "invalid_grant" \/ error_document w 400 "invalid_request").
Proof.
  intros ev s r id Hr Hn. pose proof (proj1 (proj1 Hr)) as He.
  assert (exists name, token_refusal ev s r 400 name /\ (name = "invalid_grant" \/ name = "invalid_request")) as (name & Hf & Hname).
  { assert (authentic s (body_param r "refresh_token") \/ ~ authentic s (body_param r "refresh_token")) as [Ha|Ha].
    { rewrite authentic_spec. destruct (parse_token (cfg_secret (sv_config s)) (body_param r "refresh_token")) as [t|m]; [left; by exists t|right; by intros [t H]]. }
    - exists "invalid_grant". split; [|by left]. apply (refuse_refresh _ _ _ id); [done..|]. intros d (Hd & _). by apply (Hn d).
    - exists "invalid_request". split; [|by right]. by apply (refuse_refresh_text _ _ _ id). }
  apply token_refusal_decided in Hf as (s' & e & Hh & Hp & Hs & Hnm); [|done].
  assert (s' = s) as ->.
  { destruct (c42_error _ _ _ _ _ Hh) as [?|[(sg & (_ & Hg & _) & _)|(Hv & _)]]; [done| |].
    - destruct Hr as (_ & _ & Hg'). rewrite Hg in Hg'. discriminate Hg'.
    - apply endpoint_token in He. apply endpoint_revoke in Hv. congruence. }
  destruct (write_plain e Hp) as (w & Hw & _ & Hd & _). exists w. unfold serve_http. rewrite Hh, Hw. split; [done|].
  rewrite <- Hs. destruct Hname as [<-|<-]; rewrite <- Hnm; auto.
Qed.
