(** Proofs about what becomes known of the secrets. *)
From Verif.Model Require Import Server History.
From Verif.Spec Require Import TokenSpec ScopeSpec WireSpec RequestSpec ServerSpec HistorySpec SecretSpec.
From Verif.Proof Require Import StrFacts UrlFacts WireFacts ServerFacts Steps RequestParse ServerProofs GrantProofs EffectProofs Effects HistoryFacts LocalProofs.

#[local] Open Scope string_scope.

(** The server with other clients and users. *)
Definition swap (cl us : gmap string entity) (s : server) : server :=
  {| sv_config := sv_config s; sv_clients := cl; sv_users := us; sv_access := sv_access s; sv_refresh := sv_refresh s; sv_codes := sv_codes s |}.
Definition swap_result (cl us : gmap string entity) (x : result) : result :=
  match x with Done s o => Done (swap cl us s) o | Panic s => Panic (swap cl us s) end.

Lemma equal_swap s1 s2 : equal_but_secrets s1 s2 -> s2 = swap (sv_clients s2) (sv_users s2) s1.
Proof. intros (E1 & _ & _ & E2 & E3 & E4). unfold swap. rewrite E1, E2, E3, E4. by destruct s2. Qed.
Lemma issue_swap cl us ev s b sc id u q :
  issue_tokens ev (swap cl us s) b sc id u q = option_map (fun '(s', r) => (swap cl us s', r)) (issue_tokens ev s b sc id u q).
Proof.
  unfold issue_tokens. cbn [swap sv_config]. destruct (cfg_must_generate _ _) as [[a src]|]; [|done]. destruct b; [|done].
  destruct (cfg_must_generate _ src) as [[f src']|]; [|done]. done.
Qed.

Section swap.
  Context (cl us : gmap string entity) (s : server).
  Context (Hcl : entries_but_secrets (sv_clients s) cl) (Hus : entries_but_secrets (sv_users s) us).

  Lemma owner_swap user p : password_of s user p <-> password_of (swap cl us s) user p ->
    owner_ok (swap cl us s) user p = owner_ok s user p.
  Proof.
    unfold password_of, owner_ok. cbn [swap sv_users]. intros H. specialize (Hus user).
    destruct (sv_users s !! user) as [a|], (us !! user) as [b|]; [|done..].
    destruct (seqb (en_secret a) p) eqn:E1, (seqb (en_secret b) p) eqn:E2; try done.
    - apply seqb_true in E1. apply seqb_false in E2. destruct (proj1 H) as (e & [= <-] & E); [by exists a|done].
    - apply seqb_false in E1. apply seqb_true in E2. destruct (proj2 H) as (e & [= <-] & E); [by exists b|done].
  Qed.
  Lemma client_swap id secret a b : sv_clients s !! id = Some a -> cl !! id = Some b ->
    (secret_of s id secret <-> secret_of (swap cl us s) id secret) -> client_ok b secret = client_ok a secret.
  Proof.
    unfold secret_of. cbn [swap sv_clients]. intros Ea Eb H. pose proof (Hcl id) as HE. rewrite Ea, Eb in HE. destruct HE as [_ HE].
    unfold client_ok. rewrite <- HE. destruct (en_confidential a) eqn:Ec; [|done]. cbn [andb].
    destruct (seqb (en_secret a) secret) eqn:E1, (seqb (en_secret b) secret) eqn:E2; try done.
    - apply seqb_true in E1. apply seqb_false in E2. destruct (proj1 H) as (e & He & _ & E); [by exists a|congruence].
    - apply seqb_false in E1. apply seqb_true in E2. destruct (proj2 H) as (e & He & _ & E); [exists b; by rewrite <- HE|congruence].
  Qed.

  Lemma authorize_swap ev r : endpoint r "authorize" -> fares_alike s (swap cl us s) r ->
    authorization_endpoint ev (swap cl us s) r = swap_result cl us (authorization_endpoint ev s r).
  Proof.
    intros He [_ HF]. unfold authorization_endpoint.
    destruct (parse_authorization_request r) as [req|e] eqn:Ep; [|done].
    destruct (known_response_type (aq_response_type req)); cbn [negb]; [|done].
    pose proof (parse_authorization_inl r req Ep) as (Hm & _). cbn [swap sv_clients]. pose proof (Hcl (aq_client_id req)) as HE.
    destruct (sv_clients s !! aq_client_id req) as [a|], (cl !! aq_client_id req) as [b|]; [|done..]. destruct HE as [HE _]. rewrite <- HE.
    destruct (seqb (en_redirect_uri a) (aq_redirect_uri req)); cbn [negb]; [|done].
    destruct (seqb (rq_method r) "GET") eqn:Eg; [done|].
    assert (Hpost : rq_method r = "POST") by (destruct Hm as [Hm|Hm]; [rewrite Hm in Eg; discriminate Eg|done]).
    cbv zeta. rewrite !post_form_param. specialize (HF (or_introl (conj He Hpost))). cbv zeta in HF. apply owner_swap in HF.
    fold (swap cl us s).
    destruct (seqb (aq_response_type req) TokenResponseType).
    - unfold handle_implicit. rewrite HF, issue_swap. cbn [swap sv_config]. destruct (scope_includes _ _); cbn [negb]; [|done].
      destruct (owner_ok s _ _); cbn [negb]; [|done]. by destruct (issue_tokens ev s _ _ _ _ _) as [[t x]|].
    - unfold handle_code_authorization. rewrite HF. cbn [swap sv_config]. destruct (scope_includes _ _); cbn [negb]; [|done].
      destruct (owner_ok s _ _); cbn [negb]; [|done]. by destruct (cfg_must_generate _ _) as [[q src]|].
  Qed.

  Lemma token_swap ev r : endpoint r "token" -> fares_alike s (swap cl us s) r ->
    token_endpoint ev (swap cl us s) r = swap_result cl us (token_endpoint ev s r).
  Proof.
    intros He [HS HF]. unfold token_endpoint.
    destruct (parse_token_request r) as [req|e] eqn:Ep; [|done].
    destruct (known_grant_type (tq_grant_type req)) eqn:Ek; cbn [negb]; [|done].
    pose proof Ep as (Hm & Hcc & Hg & Hu & Hpw & Hrt & Hcode & _)%parse_token_inl.
    assert (Hna : ~ endpoint r "authorize") by (rewrite endpoint_authorize; apply endpoint_token in He; by rewrite He).
    specialize (HS Hna). rewrite Hcc in HS.
    cbn [swap sv_clients]. pose proof (Hcl (tq_client_id req)) as HE.
    destruct (sv_clients s !! tq_client_id req) as [a|] eqn:Ea, (cl !! tq_client_id req) as [b|] eqn:Eb; [|done..]. fold (swap cl us s).
    rewrite (client_swap _ _ a b Ea Eb HS). destruct HE as [_ HE].
    destruct (client_ok a (tq_client_secret req)); cbn [negb]; [|done].
    destruct (seqb (tq_grant_type req) PasswordGrantType) eqn:E1.
    { apply seqb_true in E1. unfold handle_password. rewrite Hu, Hpw, issue_swap.
      rewrite owner_swap by (apply HF; right; split; [done|by rewrite <- Hg]). cbn [swap sv_config].
      destruct (owner_ok s _ _); cbn [negb]; [|done]. destruct (scope_includes _ _); cbn [negb]; [|done].
      by destruct (issue_tokens ev s _ _ _ _ _) as [[t x]|]. }
    destruct (seqb (tq_grant_type req) ClientCredentialsGrantType) eqn:E2.
    { unfold handle_client_credentials. rewrite issue_swap. cbn [swap sv_config sv_clients]. rewrite Ea, Eb, <- HE. destruct (en_confidential a); cbn [negb]; [|done].
      destruct (scope_includes _ _); cbn [negb]; [|done]. by destruct (issue_tokens ev s _ _ _ _ _) as [[t x]|]. }
    destruct (seqb (tq_grant_type req) AuthorizationCodeGrantType) eqn:E3.
    { unfold handle_code. cbn [swap sv_config sv_codes].
      destruct (parse_token _ _) as [q|msg]; [|done]. cbv zeta.
      destruct (sv_codes s !! signature_string q) as [d|]; [|done]. fold (swap cl us s).
      destruct (cd_used d); [done|]. rewrite issue_swap.
      destruct (_ <? _)%Z; [done|]. destruct (seqb (cd_client_id d) _); cbn [negb]; [|done].
      destruct (seqb (cd_redirect_uri d) _); cbn [negb]; [|done]. by destruct (issue_tokens ev s _ _ _ _ _) as [[t x]|]. }
    unfold handle_refresh. cbn [swap sv_config sv_refresh].
    destruct (parse_token _ _) as [q|msg]; [|done]. cbv zeta.
    destruct (sv_refresh s !! signature_string q) as [d|]; [|done]. fold (swap cl us s). rewrite issue_swap.
    destruct (_ <? _)%Z; [done|]. destruct (seqb (cd_client_id d) _); cbn [negb]; [|done].
    destruct (scope_includes (cd_scope d) _); cbn [negb]; [|done]. by destruct (issue_tokens ev s _ _ _ _ _) as [[t x]|].
  Qed.

  Lemma prologue_swap r : ~ endpoint r "authorize" -> fares_alike s (swap cl us s) r ->
    lookup_prologue (swap cl us s) r = lookup_prologue s r.
  Proof.
    intros Hna [HS _]. unfold lookup_prologue. destruct (parse_lookup_request r) as [req|e] eqn:Ep; [|done].
    destruct (_ && _); [done|]. apply parse_lookup_inl in Ep as (_ & _ & Hcc & _). specialize (HS Hna). rewrite Hcc in HS.
    cbn [swap sv_clients sv_config]. pose proof (Hcl (lq_client_id req)) as HE.
    destruct (sv_clients s !! lq_client_id req) as [a|] eqn:Ea, (cl !! lq_client_id req) as [b|] eqn:Eb; [|done..].
    by rewrite (client_swap _ _ a b Ea Eb HS).
  Qed.

  Lemma handle_swap ev r : fares_alike s (swap cl us s) r -> handle ev (swap cl us s) r = swap_result cl us (handle ev s r).
  Proof.
    intros HF. destruct (decide (last_segment (rq_path r) = "authorize")) as [E|E1].
    { apply endpoint_authorize in E. rewrite !handle_authorize by done. by apply authorize_swap. }
    pose proof E1 as Hna. rewrite <- endpoint_authorize in Hna.
    destruct (decide (last_segment (rq_path r) = "token")) as [E|E2].
    { apply endpoint_token in E. rewrite !handle_token by done. by apply token_swap. }
    destruct (decide (last_segment (rq_path r) = "introspect")) as [E|E3].
    { apply endpoint_introspect in E. rewrite !handle_introspect by done. unfold introspection_endpoint. rewrite prologue_swap by done.
      destruct (lookup_prologue s r) as [[req t]|e]; [|done]. cbv zeta. cbn [swap sv_access sv_refresh].
      destruct (sv_access s !! _) as [a|]; [destruct (negb _); [done|]|]; (destruct (sv_refresh s !! _) as [f|]; [by destruct (negb _)|done]). }
    destruct (decide (last_segment (rq_path r) = "revoke")) as [E|E4].
    { apply endpoint_revoke in E. rewrite !handle_revoke by done. unfold revocation_endpoint. rewrite prologue_swap by done.
      destruct (lookup_prologue s r) as [[req t]|e]; [|done]. cbv zeta. cbn [swap sv_access].
      destruct (sv_access s !! _) as [a|]; [destruct (negb (seqb (cd_client_id a) _)); [done|]|]; cbn [sv_refresh set_access swap]; (destruct (sv_refresh s !! _) as [f|]; [by destruct (negb (seqb (cd_client_id f) _))|done]). }
    by rewrite !handle_other by (by apply other_path_spec).
  Qed.
End swap.

Lemma swap_equal s1 s2 t : equal_but_secrets s1 s2 -> same_registry s1 t -> equal_but_secrets t (swap (sv_clients s2) (sv_users s2) t).
Proof. intros (_ & H1 & H2 & _) (_ & E1 & E2). unfold equal_but_secrets, swap. cbn. rewrite E1, E2. repeat split; try done. Qed.

Lemma handle_secrets ev s1 s2 r : equal_but_secrets s1 s2 -> fares_alike s1 s2 r ->
  match handle ev s1 r, handle ev s2 r with
  | Done t1 o1, Done t2 o2 => o1 = o2 /\ equal_but_secrets t1 t2
  | Panic t1, Panic t2 => equal_but_secrets t1 t2
  | _, _ => False
  end.
Proof.
  intros HE HF. pose proof HE as (_ & HC & HU & _). pose proof (equal_swap _ _ HE) as E.
  assert (EH : handle ev s2 r = swap_result (sv_clients s2) (sv_users s2) (handle ev s1 r)).
  { rewrite E at 1. apply handle_swap; [done|done|]. by rewrite <- E. }
  rewrite EH.
  pose proof (handle_alike ev s1 s1 r (conj eq_refl (fun x _ => agree_refl s1 x))) as HA.
  destruct (handle ev s1 r) as [t o|t]; cbn in HA |- *.
  - destruct HA as (_ & HR & _). split; [done|]. by apply (swap_equal s1).
  - destruct HA as (-> & _). by apply (swap_equal s1).
Qed.

Lemma c67_serve : forall ev s1 s2 r w, equal_but_secrets s1 s2 -> fares_alike s1 s2 r ->
  snd (serve_http ev s1 r w) = snd (serve_http ev s2 r w) /\
  equal_but_secrets (fst (serve_http ev s1 r w)) (fst (serve_http ev s2 r w)).
Proof.
  intros ev s1 s2 r w HE HF. pose proof (handle_secrets ev s1 s2 r HE HF) as H. unfold serve_http.
  destruct (handle ev s1 r) as [t1 o1|t1], (handle ev s2 r) as [t2 o2|t2]; cbn; [|done|done|done].
  by destruct H as [-> H].
Qed.
Lemma c67_authorize : forall now s1 s2 r required w, equal_but_secrets s1 s2 ->
  authorize now s1 r required w = authorize now s2 r required w.
Proof.
  intros now s1 s2 r required w (E1 & _ & _ & E2 & _). unfold authorize, authorize_decision. by rewrite E1, E2.
Qed.

Lemma entries_insert m1 m2 n a b : entries_but_secrets m1 m2 -> same_but_secret a b -> entries_but_secrets (<[n := a]> m1) (<[n := b]> m2).
Proof. intros H Hab k. destruct (decide (n = k)) as [<-|Hne]; [by rewrite !lookup_insert|rewrite !lookup_insert_ne by done; apply H]. Qed.
Lemma entries_delete m1 m2 n : entries_but_secrets m1 m2 -> entries_but_secrets (delete n m1) (delete n m2).
Proof. intros H k. destruct (decide (n = k)) as [<-|Hne]; [by rewrite !lookup_delete|rewrite !lookup_delete_ne by done; apply H]. Qed.
Lemma op_secrets s1 s2 o1 o2 : equal_but_secrets s1 s2 -> same_call o1 o2 -> (forall ev r, o1 = Serve ev r -> fares_alike s1 s2 r) ->
  snd (do_op s1 o1) = snd (do_op s2 o2) /\ equal_but_secrets (fst (do_op s1 o1)) (fst (do_op s2 o2)).
Proof.
  intros HE Hs HF. destruct Hs as [->|[(id & a & b & -> & -> & Hab)|(id & a & b & -> & -> & Hab)]].
  - destruct o2 as [ev r|now r required|id e|id|name e|name].
    + pose proof (handle_secrets ev s1 s2 r HE (HF ev r eq_refl)) as H. cbn [do_op].
      destruct (handle ev s1 r) as [t1 x1|t1], (handle ev s2 r) as [t2 x2|t2]; [|done..]. cbn. by destruct H as [-> H].
    + destruct HE as (E1 & ? & ? & E2 & ?). cbn. unfold authorize_decision. rewrite E1, E2. done.
    + destruct HE as (? & ? & ? & ?). split; [done|]. split; [done|]. split; [by apply entries_insert|done].
    + destruct HE as (? & ? & ? & ?). split; [done|]. split; [done|]. split; [by apply entries_delete|done].
    + destruct HE as (? & ? & ? & ?). split; [done|]. split; [done|]. split; [done|]. split; [by apply entries_insert|done].
    + destruct HE as (? & ? & ? & ?). split; [done|]. split; [done|]. split; [done|]. split; [by apply entries_delete|done].
  - destruct HE as (? & ? & ? & ?). split; [done|]. split; [done|]. split; [by apply entries_insert|done].
  - destruct HE as (? & ? & ? & ?). split; [done|]. split; [done|]. split; [done|]. split; [by apply entries_insert|done].
Qed.
Lemma c67_history : forall cfg l1 l2 s1 s2, history cfg l1 s1 -> history cfg l2 s2 -> fare_alike l1 l2 ->
  map st_answer l1 = map st_answer l2 /\ equal_but_secrets s1 s2.
Proof.
  intros cfg l1 l2 s1 s2 H1. revert l2 s2. induction H1 as [|l1 u1 o1 H1 IH]; intros l2 s2 H2 HF.
  - inversion HF; subst. inversion H2; subst. split; [done|]. unfold equal_but_secrets. repeat split; intros ?; cbn; by rewrite lookup_empty.
  - inversion HF as [|y1 y2 l1' l2' [Hs Hf] HF' E1 E2]; subst. inversion H2 as [|l2'' u2 o2 H2' E3 E4]; subst.
    destruct (IH _ _ H2' HF') as [IHa IHe]. destruct (op_secrets u1 u2 o1 o2 IHe Hs Hf) as [Ea Ee].
    split; [|done]. cbn [map step_of st_answer]. by rewrite Ea, IHa.
Qed.
