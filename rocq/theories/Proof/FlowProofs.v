(** What the answers depend on. *)
From Verif.Model Require Import Server History.
From Verif.Spec Require Import TokenSpec ScopeSpec WireSpec RequestSpec ServerSpec HistorySpec FlowSpec.
From Verif.Proof Require Import StrFacts HsFacts TokenProofs UrlFacts Steps ServerFacts RequestProofs ServerProofs GrantProofs EffectProofs Effects HistoryFacts HistoryProofs HistoryMore.

Lemma handle_registry_same ev s r : sv_clients (res_server (handle ev s r)) = sv_clients s /\ sv_users (res_server (handle ev s r)) = sv_users s.
Proof.
  pose proof (handle_handled ev s r) as H. destruct H; try done; cbn;
    match goal with
    | H : issued_access _ _ _ _ _ _ _ _ |- _ => destruct H as (? & ? & _ & _ & ->); done
    | H : issued_both _ _ _ _ _ _ _ _ |- _ => destruct H as (? & ? & ? & ? & _ & _ & _ & ->); done
    end.
Qed.

(** ** Secrets *)
Definition with_registry (cl us : gmap string entity) (s : server) : server :=
  {| sv_config := sv_config s; sv_clients := cl; sv_users := us;
     sv_access := sv_access s; sv_refresh := sv_refresh s; sv_codes := sv_codes s |}.
Definition map_result (f : server -> server) (res : result) : result :=
  match res with Done s o => Done (f s) o | Panic s => Panic (f s) end.

Section Registry.
Variables (cl us : gmap string entity) (s : server) (r : request).
Hypothesis Hcl : forall id p, client_credentials r = (id, p) \/ (p = "" /\ form_param r "client_id" = id) ->
  match sv_clients s !! id, cl !! id with
  | Some e1, Some e2 => en_redirect_uri e1 = en_redirect_uri e2 /\ en_confidential e1 = en_confidential e2 /\
      (client_credentials r = (id, p) -> client_ok e1 p = client_ok e2 p)
  | None, None => True
  | _, _ => False
  end.
Hypothesis Hus : owner_ok (with_registry cl us s) (body_param r "username") (body_param r "password") =
  owner_ok s (body_param r "username") (body_param r "password").
Notation W := (with_registry cl us).

Lemma issue_registry ev b sc c u code :
  issue_tokens ev (W s) b sc c u code =
  match issue_tokens ev s b sc c u code with Some (s', t) => Some (W s', t) | None => None end.
Proof.
  unfold issue_tokens. cbv zeta. cbn [sv_config with_registry]. destruct (cfg_must_generate _ _) as [[a src]|]; [|done].
  destruct b; [|done]. by destruct (cfg_must_generate _ src) as [[f src']|].
Qed.
Lemma prologue_registry : lookup_prologue (W s) r = lookup_prologue s r.
Proof.
  unfold lookup_prologue. destruct (parse_lookup_request r) as [q|] eqn:Eq; [|done].
  apply parse_lookup_inl in Eq as (_ & _ & Hc & _). destruct (negb _ && negb _); [done|].
  cbn [sv_clients sv_config with_registry]. specialize (Hcl _ _ (or_introl Hc)).
  destruct (sv_clients s !! lq_client_id q) as [e1|], (cl !! lq_client_id q) as [e2|]; try done.
  destruct Hcl as (_ & _ & Ho). by rewrite (Ho Hc).
Qed.
Lemma handle_registry ev : handle ev (W s) r = map_result W (handle ev s r).
Proof.
  unfold handle. cbv zeta. destruct (seqb _ "authorize").
  { unfold authorization_endpoint. destruct (parse_authorization_request r) as [q|] eqn:Eq; [|done].
    apply parse_authorization_inl in Eq as (_ & (f & Hf & _ & _ & _ & Hid & _) & _).
    destruct (negb _); [done|]. cbn [sv_clients with_registry].
    assert (Hp : form_param r "client_id" = aq_client_id q) by (unfold form_param; by rewrite Hf).
    specialize (Hcl _ "" (or_intror (conj eq_refl Hp))).
    destruct (sv_clients s !! aq_client_id q) as [e1|], (cl !! aq_client_id q) as [e2|]; try done.
    destruct Hcl as (Hr & _). rewrite Hr. destruct (negb _); [done|]. destruct (seqb (rq_method r) "GET"); [done|].
    assert (Hu : vget (post_form r) "username" = body_param r "username" /\ vget (post_form r) "password" = body_param r "password").
    { unfold post_form, body_param. by destruct (parse_form r). }
    destruct Hu as [-> ->].
    destruct (seqb (aq_response_type q) TokenResponseType).
    - unfold handle_implicit. cbn [sv_config with_registry]. destruct (negb _); [done|]. rewrite Hus. destruct (negb _); [done|].
      rewrite issue_registry. by destruct (issue_tokens _ _ _ _ _ _ _) as [[]|].
    - unfold handle_code_authorization. cbn [sv_config with_registry]. destruct (negb _); [done|]. rewrite Hus. destruct (negb _); [done|].
      by destruct (cfg_must_generate _ _) as [[]|]. }
  destruct (seqb _ "token").
  { unfold token_endpoint. destruct (parse_token_request r) as [q|] eqn:Eq; [|done].
    apply parse_token_inl in Eq as (_ & Hc & _ & Hu & Hp & _). destruct (negb _); [done|].
    cbn [sv_clients with_registry]. specialize (Hcl _ _ (or_introl Hc)).
    destruct (sv_clients s !! tq_client_id q) as [e1|] eqn:E1, (cl !! tq_client_id q) as [e2|] eqn:E2; try done.
    destruct Hcl as (_ & Hcf & Ho). rewrite (Ho Hc). destruct (negb _); [done|].
    destruct (seqb _ PasswordGrantType).
    { unfold handle_password. rewrite Hu, Hp, Hus. destruct (negb _); [done|]. cbn [sv_config with_registry].
      destruct (negb _); [done|]. rewrite issue_registry. by destruct (issue_tokens _ _ _ _ _ _ _) as [[]|]. }
    destruct (seqb _ ClientCredentialsGrantType).
    { unfold handle_client_credentials. cbn [sv_clients with_registry]. rewrite E1, E2, Hcf. destruct (negb _); [done|]. cbn [sv_config with_registry].
      destruct (negb _); [done|]. rewrite issue_registry. by destruct (issue_tokens _ _ _ _ _ _ _) as [[]|]. }
    destruct (seqb _ AuthorizationCodeGrantType).
    { unfold handle_code. cbn [sv_config sv_codes with_registry]. destruct (parse_token _ _) as [k|]; [|done]. cbv zeta.
      destruct (sv_codes s !! _) as [d|]; [|done]. destruct (cd_used d); [done|]. destruct (_ <? _)%Z; [done|].
      destruct (negb _); [done|]. destruct (negb _); [done|]. rewrite issue_registry. by destruct (issue_tokens _ _ _ _ _ _ _) as [[]|]. }
    unfold handle_refresh. cbn [sv_config sv_refresh with_registry]. destruct (parse_token _ _) as [k|]; [|done]. cbv zeta.
    destruct (sv_refresh s !! _) as [d|]; [|done]. destruct (_ <? _)%Z; [done|].
    destruct (negb _); [done|]. destruct (negb _); [done|]. rewrite issue_registry. by destruct (issue_tokens _ _ _ _ _ _ _) as [[]|]. }
  destruct (seqb _ "introspect").
  { unfold introspection_endpoint. rewrite prologue_registry. destruct (lookup_prologue s r) as [[q t]|]; [|done]. cbv zeta.
    cbn [sv_access sv_refresh with_registry].
    destruct (sv_access s !! _) as [a|]; [destruct (negb _); [done|]|];
      (destruct (sv_refresh s !! _); [|done]); by destruct (negb _). }
  destruct (seqb _ "revoke"); [|done].
  unfold revocation_endpoint. rewrite prologue_registry. destruct (lookup_prologue s r) as [[q t]|]; [|done]. cbv zeta.
  cbn [sv_access sv_refresh with_registry].
  destruct (sv_access s !! _) as [a|]; [destruct (negb _); [done|]|];
    cbn [sv_refresh set_access with_registry]; (destruct (sv_refresh s !! _); [|done]); by destruct (negb _).
Qed.
End Registry.

(** The registries of two servers agree up to secrets that are not told apart. *)
Definition agree (l : list op) (s : server) (cl us : gmap string entity) : Prop :=
  (forall id, match sv_clients s !! id, cl !! id with
    | Some e1, Some e2 => en_redirect_uri e1 = en_redirect_uri e2 /\ en_confidential e1 = en_confidential e2 /\
        not_told_apart (tried_secret l id) e1 e2
    | None, None => True
    | _, _ => False
    end) /\
  (forall name, match sv_users s !! name, us !! name with
    | Some e1, Some e2 => not_told_apart (tried_password l name) e1 e2
    | None, None => True
    | _, _ => False
    end).
Lemma told_eq e1 e2 p : (en_secret e1 = p <-> en_secret e2 = p) -> seqb (en_secret e1) p = seqb (en_secret e2) p.
Proof.
  intros H. destruct (seqb (en_secret e1) p) eqn:E1, (seqb (en_secret e2) p) eqn:E2; try done; exfalso.
  - apply seqb_true in E1. apply seqb_false in E2. tauto.
  - apply seqb_true in E2. apply seqb_false in E1. tauto.
Qed.

Lemma answers_agree L l1 l2 : (forall ev r, In (Serve ev r) l1 -> In (Serve ev r) L) -> Forall2 (twin L) l1 l2 -> forall s cl us,
  agree L s cl us -> answers (with_registry cl us s) l2 = answers s l1.
Proof.
  intros HL H. induction H as [|o1 o2 l1 l2 Ho Hl IH]; [done|]. intros s cl us [Hc Hu]. cbn [answers].
  assert (HL' : forall ev r, In (Serve ev r) l1 -> In (Serve ev r) L) by (intros ev r Hi; apply HL; by right).
  specialize (IH HL').
  assert (Hop : exists cl' us', fst (do_op (with_registry cl us s) o2) = with_registry cl' us' (fst (do_op s o1)) /\
    snd (do_op (with_registry cl us s) o2) = snd (do_op s o1) /\ agree L (fst (do_op s o1)) cl' us').
  { destruct Ho as [o|id e1 e2 Hr Hf Hs|name e1 e2 Hs].
    - destruct o as [ev r|now r required|id e|id|name e|name]; cbn [do_op].
      + exists cl, us. rewrite handle_registry.
        * assert (Hreg : sv_clients (res_server (handle ev s r)) = sv_clients s /\ sv_users (res_server (handle ev s r)) = sv_users s).
          { apply handle_registry_same. }
          destruct Hreg as [Rc Ru].
          destruct (handle ev s r) as [s' o|s']; cbn in *; (split; [done|split; [done|]]); split; rewrite ?Rc, ?Ru; done.
        * intros id p Hp. specialize (Hc id). destruct (sv_clients s !! id) as [e1|], (cl !! id) as [e2|]; try done.
          destruct Hc as (H1 & H2 & H3). split; [done|]. split; [done|]. intros Hcc. unfold client_ok. rewrite H2.
          do 3 f_equal. apply told_eq, H3. exists ev, r. split; [|done]. apply HL. by left.
        * unfold owner_ok. cbn [sv_users with_registry]. specialize (Hu (body_param r "username")).
          destruct (sv_users s !! body_param r "username") as [e1|], (us !! body_param r "username") as [e2|]; try done.
          symmetry. apply told_eq, Hu. exists ev, r. split; [|done]. apply HL. by left.
      + exists cl, us. done.
      + exists (<[id := e]> cl), us. split; [done|]. split; [done|]. split; [|done]. intros id'. cbn.
        destruct (decide (id' = id)) as [->|Hn]; [rewrite !lookup_insert; done|]. rewrite !lookup_insert_ne by done. apply Hc.
      + exists (delete id cl), us. split; [done|]. split; [done|]. split; [|done]. intros id'. cbn.
        destruct (decide (id' = id)) as [->|Hn]; [rewrite !lookup_delete; done|]. rewrite !lookup_delete_ne by done. apply Hc.
      + exists cl, (<[name := e]> us). split; [done|]. split; [done|]. split; [done|]. intros id'. cbn.
        destruct (decide (id' = name)) as [->|Hn]; [rewrite !lookup_insert; done|]. rewrite !lookup_insert_ne by done. apply Hu.
      + exists cl, (delete name us). split; [done|]. split; [done|]. split; [done|]. intros id'. cbn.
        destruct (decide (id' = name)) as [->|Hn]; [rewrite !lookup_delete; done|]. rewrite !lookup_delete_ne by done. apply Hu.
    - exists (<[id := e2]> cl), us. split; [done|]. split; [done|]. split; [|done]. intros id'. cbn.
      destruct (decide (id' = id)) as [->|Hn]; [rewrite !lookup_insert; done|]. rewrite !lookup_insert_ne by done. apply Hc.
    - exists cl, (<[name := e2]> us). split; [done|]. split; [done|]. split; [done|]. intros id'. cbn.
      destruct (decide (id' = name)) as [->|Hn]; [rewrite !lookup_insert; done|]. rewrite !lookup_insert_ne by done. apply Hu. }
  destruct Hop as (cl' & us' & -> & -> & Ha). by rewrite (IH _ _ _ Ha).
Qed.

Lemma c67_secrets : forall cfg l1 l2, Forall2 (twin l1) l1 l2 -> answers (new_server cfg) l1 = answers (new_server cfg) l2.
Proof.
  intros cfg l1 l2 H. symmetry. apply (answers_agree l1 l1 l2 (fun _ _ H => H) H (new_server cfg) ∅ ∅).
  split; intros x; cbn; by rewrite !lookup_empty.
Qed.

(** A secret that is never presented leaves no trace. *)
Lemma c67_unguessed : forall cfg l1 l2 id e p,
  (forall q, tried_secret (l1 ++ l2) id q -> q <> en_secret e /\ q <> p) ->
  answers (new_server cfg) (l1 ++ SetClient id e :: l2) =
  answers (new_server cfg) (l1 ++ SetClient id {| en_secret := p; en_redirect_uri := en_redirect_uri e; en_confidential := en_confidential e |} :: l2).
Proof.
  intros cfg l1 l2 id e p H. apply c67_secrets. apply Forall2_app.
  - apply Forall_Forall2_diag, Forall_forall. intros. apply twin_same.
  - constructor; [|apply Forall_Forall2_diag, Forall_forall; intros; apply twin_same].
    apply twin_client; [done|done|]. intros q (ev & r & Hin & Hc). cbn.
    destruct (H q) as [H1 H2]; [|split; intros; congruence]. exists ev, r. split; [|done].
    apply in_app_or in Hin as [Hin|[Hin|Hin]]; [apply in_or_app; by left|done|apply in_or_app; by right].
Qed.

(** ** Clients *)
Section Isolation.
Variable A : string.

Definition mine (m : gmap string credential) : gmap string credential :=
  filter (fun kc : string * credential => cd_client_id kc.2 = A) m.
Definition only (s : server) : server :=
  {| sv_config := sv_config s; sv_clients := sv_clients s; sv_users := sv_users s;
     sv_access := mine (sv_access s); sv_refresh := mine (sv_refresh s); sv_codes := mine (sv_codes s) |}.

Lemma mine_lookup m k c : mine m !! k = Some c <-> m !! k = Some c /\ cd_client_id c = A.
Proof. unfold mine. rewrite map_filter_lookup_Some. done. Qed.
Lemma mine_same m k : (forall c, m !! k = Some c -> cd_client_id c = A) -> mine m !! k = m !! k.
Proof.
  intros H. destruct (m !! k) as [c|] eqn:E; [apply mine_lookup; auto|]. destruct (mine m !! k) as [c|] eqn:E'; [|done].
  apply mine_lookup in E' as [? _]. congruence.
Qed.
Lemma mine_insert m k c : cd_client_id c = A -> mine (<[k := c]> m) = <[k := c]> (mine m).
Proof. intros H. unfold mine. by rewrite map_filter_insert_True. Qed.
Lemma mine_delete m k : mine (delete k m) = delete k (mine m).
Proof. unfold mine. by rewrite map_filter_delete. Qed.
Lemma mine_revoke m k : mine (revoke_code k m) = revoke_code k (mine m).
Proof.
  apply map_eq. intros j. apply option_eq. intros c.
  rewrite mine_lookup, (revoke_code_without k m j c), (revoke_code_without k (mine m) j c), mine_lookup. tauto.
Qed.
Lemma only_new cfg : only (new_server cfg) = new_server cfg.
Proof. unfold only, new_server, mine. cbn. by rewrite !map_filter_empty. Qed.

Lemma issue_only ev s b sc u code :
  issue_tokens ev (only s) b sc A u code =
  match issue_tokens ev s b sc A u code with Some (s', t) => Some (only s', t) | None => None end.
Proof.
  unfold issue_tokens. cbv zeta. cbn [sv_config only]. destruct (cfg_must_generate _ _) as [[a src]|]; [|done].
  destruct b; [destruct (cfg_must_generate _ src) as [[f src']|]; [|done]|];
    unfold only, set_access, set_refresh; cbn; by rewrite !mine_insert.
Qed.
Lemma prologue_only s r : lookup_prologue (only s) r = lookup_prologue s r.
Proof. done. Qed.

Lemma handle_only ev s r : acts_for r A -> ~ presents_foreign A s r -> handle ev (only s) r = map_result only (handle ev s r).
Proof.
  intros Ha Hf.
  assert (HA : forall p sg c, In p ["code"; "refresh_token"; "token"] -> names (server_secret s) (body_param r p) sg ->
    sv_access s !! sg = Some c \/ sv_refresh s !! sg = Some c \/ sv_codes s !! sg = Some c -> cd_client_id c = A).
  { intros p sg c Hp Hn Hs. destruct (decide (cd_client_id c = A)); [done|]. destruct Hf. exists p, sg, c. done. }
  unfold handle. cbv zeta. destruct (seqb _ "authorize") eqn:Ea.
  { unfold authorization_endpoint. destruct (parse_authorization_request r) as [q|] eqn:Eq; [|done].
    apply parse_authorization_inl in Eq as (_ & (f & Hfm & _ & _ & _ & Hid & _) & _).
    destruct (negb _); [done|]. cbn [sv_clients only].
    assert (HqA : aq_client_id q = A).
    { apply seqb_true, endpoint_authorize in Ea. destruct Ha as [[_ ->]|[Hn _]]; [|done]. unfold form_param. by rewrite Hfm. }
    destruct (sv_clients s !! aq_client_id q) as [e|]; [|done]. destruct (negb _); [done|]. destruct (seqb (rq_method r) "GET"); [done|].
    destruct (seqb (aq_response_type q) TokenResponseType).
    - unfold handle_implicit. cbn [sv_config only]. destruct (negb _); [done|].
      change (owner_ok (only s)) with (owner_ok s). destruct (negb _); [done|].
      rewrite HqA, issue_only. by destruct (issue_tokens _ _ _ _ _ _ _) as [[]|].
    - unfold handle_code_authorization. cbn [sv_config only]. destruct (negb _); [done|].
      change (owner_ok (only s)) with (owner_ok s). destruct (negb _); [done|].
      destruct (cfg_must_generate _ _) as [[]|]; [|done]. unfold only, set_codes; cbn. by rewrite mine_insert. }
  destruct (seqb _ "token") eqn:Et.
  { unfold token_endpoint. destruct (parse_token_request r) as [q|] eqn:Eq; [|done].
    apply parse_token_inl in Eq as (_ & Hc & _ & Hu & Hp & Hrt & Hcode & _). destruct (negb _); [done|].
    assert (HqA : tq_client_id q = A).
    { apply seqb_false in Ea. rewrite <- endpoint_authorize in Ea. destruct Ha as [[Hn _]|[_ ->]]; [done|]. by rewrite Hc. }
    cbn [sv_clients only]. destruct (sv_clients s !! tq_client_id q) as [e1|] eqn:E1; [|done]. destruct (negb _); [done|].
    destruct (seqb _ PasswordGrantType).
    { unfold handle_password. change (owner_ok (only s)) with (owner_ok s). destruct (negb _); [done|]. cbn [sv_config only].
      destruct (negb _); [done|]. rewrite HqA, issue_only. by destruct (issue_tokens _ _ _ _ _ _ _) as [[]|]. }
    destruct (seqb _ ClientCredentialsGrantType).
    { unfold handle_client_credentials. cbn [sv_clients only]. rewrite E1. destruct (negb _); [done|]. cbn [sv_config only].
      destruct (negb _); [done|]. rewrite HqA, issue_only. by destruct (issue_tokens _ _ _ _ _ _ _) as [[]|]. }
    destruct (seqb _ AuthorizationCodeGrantType).
    { unfold handle_code. cbn [sv_config sv_codes only]. destruct (parse_token _ (tq_code q)) as [k|] eqn:Ek; [|done]. cbv zeta.
      rewrite Hcode in Ek. apply names_parsed in Ek. rewrite mine_same.
      2:{ intros c Hk. apply (HA "code" (signature_string k)); [by left|exact Ek|by right; right]. }
      destruct (sv_codes s !! _) as [d|] eqn:Ed; [|done]. destruct (cd_used d).
      { unfold only, set_access, set_refresh; cbn. by rewrite !mine_revoke. }
      destruct (_ <? _)%Z; [done|].
      destruct (negb _); [done|]. destruct (negb _); [done|]. rewrite HqA, issue_only.
      destruct (issue_tokens _ _ _ _ _ _ _) as [[]|]; [|done].
      unfold only, set_codes; cbn. rewrite mine_insert; [done|]. cbn. apply (HA "code" (signature_string k)); [by left|exact Ek|by right; right]. }
    unfold handle_refresh. cbn [sv_config sv_refresh only]. destruct (parse_token _ _) as [k|] eqn:Ek; [|done]. cbv zeta.
    rewrite Hrt in Ek. apply names_parsed in Ek. rewrite mine_same.
    2:{ intros c Hk. apply (HA "refresh_token" (signature_string k)); [by right; left|exact Ek|by right; left]. }
    destruct (sv_refresh s !! _) as [d|]; [|done]. destruct (_ <? _)%Z; [done|].
    destruct (negb _); [done|]. destruct (negb _); [done|]. rewrite HqA, issue_only.
    destruct (issue_tokens _ _ _ _ _ _ _) as [[]|]; [|done].
    unfold only, set_refresh; cbn. by rewrite mine_delete. }
  destruct (seqb _ "introspect").
  { unfold introspection_endpoint. rewrite prologue_only. destruct (lookup_prologue s r) as [[q t]|] eqn:El; [|done]. cbv zeta.
    apply prologue_inl in El as (El & _ & Ht & _). apply parse_lookup_inl in El as (_ & _ & _ & Htk & _).
    rewrite Htk in Ht. apply names_parsed in Ht.
    cbn [sv_access sv_refresh only]. rewrite !mine_same.
    2:{ intros c Hk. apply (HA "token" (signature_string t)); [by right; right; left|exact Ht|by right; left]. }
    2:{ intros c Hk. apply (HA "token" (signature_string t)); [by right; right; left|exact Ht|by left]. }
    destruct (sv_access s !! _) as [a|]; [destruct (negb _); [done|]|];
      (destruct (sv_refresh s !! _); [|done]); by destruct (negb _). }
  destruct (seqb _ "revoke"); [|done].
  unfold revocation_endpoint. rewrite prologue_only. destruct (lookup_prologue s r) as [[q t]|] eqn:El; [|done]. cbv zeta.
  apply prologue_inl in El as (El & _ & Ht & _). apply parse_lookup_inl in El as (_ & _ & _ & Htk & _).
  rewrite Htk in Ht. apply names_parsed in Ht. cbn [sv_access sv_refresh only].
  assert (Sa : mine (sv_access s) !! signature_string t = sv_access s !! signature_string t).
  { apply mine_same. intros c Hk. apply (HA "token" (signature_string t)); [by right; right; left|exact Ht|by left]. }
  assert (Sf : mine (sv_refresh s) !! signature_string t = sv_refresh s !! signature_string t).
  { apply mine_same. intros c Hk. apply (HA "token" (signature_string t)); [by right; right; left|exact Ht|by right; left]. }
  assert (Rv : forall m, mine m !! signature_string t = m !! signature_string t ->
    mine (revoke_token (lq_client_id q) m (signature_string t)) = revoke_token (lq_client_id q) (mine m) (signature_string t)).
  { intros m Hm. unfold revoke_token. rewrite Hm. destruct (m !! _); [|done]. destruct (negb _); [done|]. apply mine_delete. }
  pose proof (Rv _ Sa) as Ra. pose proof (Rv _ Sf) as Rf. clear Rv.
  rewrite Sa. destruct (sv_access s !! _) as [a|]; [destruct (negb _); [done|]|];
    cbn [sv_refresh set_access only]; rewrite Sf; (destruct (sv_refresh s !! _); [destruct (negb _)|]);
    unfold only, set_access, set_refresh; cbn; rewrite ?Ra, ?Rf; reflexivity.
Qed.

Lemma new_entries ev s r id : acts_for r id ->
  let s' := res_server (handle ev s r) in
  (forall k c, sv_access s' !! k = Some c -> sv_access s !! k = Some c \/ cd_client_id c = id) /\
  (forall k c, sv_refresh s' !! k = Some c -> sv_refresh s !! k = Some c \/ cd_client_id c = id) /\
  (forall k c, sv_codes s' !! k = Some c -> sv_codes s !! k = Some c \/ cd_client_id c = id).
Proof.
  intros Ha s'. unfold s'. clear s'. pose proof (handle_handled ev s r) as H.
  assert (HI : forall (m : gmap string credential) k0 c0 k c, cd_client_id c0 = id -> <[k0 := c0]> m !! k = Some c -> m !! k = Some c \/ cd_client_id c = id).
  { intros m k0 c0 k c H0 Hk. apply lookup_insert_Some in Hk as [[_ <-]|[_ Hk]]; auto. }
  assert (HD : forall (m : gmap string credential) k0 k c, delete k0 m !! k = Some c -> m !! k = Some c).
  { intros m k0 k c Hk. by apply lookup_delete_Some in Hk as [_ Hk]. }
  assert (HR : forall (m : gmap string credential) k0 k c, revoke_code k0 m !! k = Some c -> m !! k = Some c).
  { intros m k0 k c Hk. by apply revoke_code_without in Hk as [Hk _]. }
  destruct H; cbn [res_server]; try (split_and!; intros; by left);
    try match goal with H : at_authorize _ _ _ _ |- _ => pose proof (acts_for_fun _ _ _ Ha (acts_authorize _ _ _ _ H)) as Hid end;
    try match goal with H : at_token _ _ _ _ |- _ => pose proof (acts_for_fun _ _ _ Ha (acts_token_for _ _ _ _ H)) as Hid end;
    try match goal with
    | H : issued_access _ _ _ _ _ _ _ _ |- _ => destruct H as (? & ? & _ & _ & ->)
    | H : issued_both _ _ _ _ _ _ _ _ |- _ => destruct H as (? & ? & ? & ? & _ & _ & _ & ->)
    end; cbn; split_and!; intros k1 c1 Hk1; try (left; exact Hk1);
    try (eapply HI; [|exact Hk1]; cbn; congruence);
    try (left; eapply HR; exact Hk1); try (left; eapply HD; exact Hk1).
  apply HD in Hk1. eapply HI; [|exact Hk1]; cbn; congruence.
Qed.

Lemma acts_total r : exists id, acts_for r id.
Proof.
  destruct (seqb (last_segment (rq_path r)) "authorize") eqn:E.
  - apply seqb_true, endpoint_authorize in E. eexists. left. done.
  - apply seqb_false in E. rewrite <- endpoint_authorize in E. eexists. by right.
Qed.

Lemma foreign_only s o : foreign_call A s o -> only (fst (do_op s o)) = only s.
Proof.
  destruct o as [ev r|now r required|id e|id|name e|name]; cbn [foreign_call]; try done.
  intros (Ha & Hr & Hd). rewrite step_serve. destruct (acts_total r) as [id Hid].
  assert (Hne : id <> A) by congruence.
  destruct (new_entries ev s r id Hid) as (N1 & N2 & N3).
  assert (HE : forall k c, cd_client_id c = A -> _) by (intros k c Hc; exact (c44_exact ev s r id k c Hid ltac:(congruence))).
  cbv zeta in HE.
  destruct (handle_registry_same ev s r) as [Rc Ru]. pose proof (handle_config ev s r) as Rf.
  set (s' := res_server (handle ev s r)) in *. unfold only. rewrite Rc, Ru, Rf. f_equal.
  - apply map_eq. intros k. apply option_eq. intros c. rewrite !mine_lookup. split; intros [Hk Hc]; (split; [|done]).
    + destruct (N1 k c Hk); [done|congruence].
    + destruct (HE k c Hc) as (H1 & _). destruct (H1 Hk) as [?|[(o & Ho & Hh)|[_ Hrp]]]; [done| |].
      * destruct (Hd _ _ k c Ho Hc) as (H0 & _). by destruct (H0 Hh).
      * destruct (Hr k c (or_introl Hk) Hc Hrp).
  - apply map_eq. intros k. apply option_eq. intros c. rewrite !mine_lookup. split; intros [Hk Hc]; (split; [|done]).
    + destruct (N2 k c Hk); [done|congruence].
    + destruct (HE k c Hc) as (_ & H1 & _). destruct (H1 Hk) as [?|[(o & Ho & Hh)|[_ Hrp]]]; [done| |].
      * destruct (Hd _ _ k c Ho Hc) as (_ & H0 & _). by destruct (H0 Hh).
      * destruct (Hr k c (or_intror Hk) Hc Hrp).
  - apply map_eq. intros k. apply option_eq. intros c. rewrite !mine_lookup. split; intros [Hk Hc]; (split; [|done]).
    + destruct (N3 k c Hk); [done|congruence].
    + destruct (HE k c Hc) as (_ & _ & H1). destruct (H1 Hk) as [?|(o & Ho & Hh)]; [done|].
      destruct (Hd _ _ k c Ho Hc) as (_ & _ & H0). by destruct (H0 Hh).
Qed.

Lemma own_only s o : own_call A s o ->
  fst (do_op (only s) o) = only (fst (do_op s o)) /\ snd (do_op (only s) o) = snd (do_op s o).
Proof.
  destruct o as [ev r|now r required|id e|id|name e|name]; cbn [own_call do_op]; try done.
  - intros [Ha Hf]. rewrite (handle_only ev s r Ha Hf). by destruct (handle ev s r).
  - intros Hb. split; [done|]. cbn [snd]. f_equal. unfold authorize_decision.
    destruct (parse_bearer_token r) as [tk|e|] eqn:Eb; [|done|done]. cbn [sv_config sv_access only].
    destruct (parse_token _ tk) as [t|] eqn:Et; [|done]. rewrite mine_same; [done|].
    intros c Hc. destruct (decide (cd_client_id c = A)); [done|]. destruct Hb. exists tk, c.
    split; [by apply bearer_spec|]. split; [|done]. exists (signature_string t). split; [|done]. by apply names_parsed.
Qed.

Lemma interleaved_only s l own : interleaved A s l own -> answers (only s) (map fst own) = map snd own.
Proof.
  induction 1 as [s|s o l own Ho _ IH|s o l own Ho _ IH]; [done| |].
  - cbn [map fst snd answers]. destruct (own_only s o Ho) as [-> ->]. by rewrite IH.
  - by rewrite (foreign_only s o Ho) in IH.
Qed.
End Isolation.

Lemma c69_isolation : forall cfg id l own,
  interleaved id (new_server cfg) l own -> answers (new_server cfg) (map fst own) = map snd own.
Proof. intros cfg id l own H. rewrite <- (only_new id cfg). by apply interleaved_only with l. Qed.

(** ** Memory *)
Lemma size_insert_le (m : gmap string credential) k c : (size (<[k := c]> m) <= S (size m))%nat.
Proof. destruct (m !! k) as [d|] eqn:E; [rewrite map_size_insert_Some by eauto|rewrite map_size_insert_None by done]; lia. Qed.
Lemma size_delete_le (m : gmap string credential) k : (size (delete k m) <= size m)%nat.
Proof. destruct (m !! k) as [d|] eqn:E; [rewrite map_size_delete_Some by eauto; lia|rewrite delete_notin by done; lia]. Qed.
Lemma size_revoke_le (m : gmap string credential) k : (size (revoke_code k m) <= size m)%nat.
Proof.
  unfold revoke_code, revoke_code_order. generalize (map fst (map_to_list m)) as order. intros order. revert m.
  induction order as [|j order IH]; intros m; [done|]. cbn [fold_left]. etransitivity; [apply IH|].
  destruct (m !! j); [|done]. destruct (seqb _ _); [apply size_delete_le|done].
Qed.
Lemma size_change ev s r :
  let s' := res_server (handle ev s r) in
  (exists t, handle ev s r = Done s' (OToken t) /\ (size (sv_access s') <= S (size (sv_access s)))%nat /\
     (size (sv_refresh s') <= S (size (sv_refresh s)))%nat /\ (size (sv_codes s') <= size (sv_codes s))%nat) \/
  (exists c, handle ev s r = Done s' (OCode c) /\ (size (sv_access s') <= size (sv_access s))%nat /\
     (size (sv_refresh s') <= size (sv_refresh s))%nat /\ (size (sv_codes s') <= S (size (sv_codes s)))%nat) \/
  ((forall s1 t, handle ev s r <> Done s1 (OToken t)) /\ (forall s1 c, handle ev s r <> Done s1 (OCode c)) /\
   (size (sv_access s') <= size (sv_access s))%nat /\
   (size (sv_refresh s') <= size (sv_refresh s))%nat /\ (size (sv_codes s') <= size (sv_codes s))%nat).
Proof.
  intros s'. unfold s'. clear s'. pose proof (handle_handled ev s r) as H.
  pose proof size_insert_le as SI. pose proof size_delete_le as SD. pose proof size_revoke_le as SR.
  remember (handle ev s r) as res eqn:Hres. destruct H; cbn [res_server];
    try match goal with
    | H : issued_access _ _ _ _ _ _ _ _ |- _ => destruct H as (? & ? & _ & _ & ->)
    | H : issued_both _ _ _ _ _ _ _ _ |- _ => destruct H as (? & ? & ? & ? & _ & _ & _ & ->)
    end; cbn;
    try (right; right; split_and!; [done|done|..]; auto; fail);
    try (left; eexists; split_and!; [done|..]; auto; fail);
    try (right; left; eexists; split_and!; [done|..]; auto; fail).
  - left. eexists. split_and!; [done|apply SI|apply SI|].
    rewrite map_size_insert_Some; [lia|]. eauto.
  - left. eexists. split_and!; [done|apply SI| |lia]. etransitivity; [apply SD|apply SI].
Qed.
Lemma counts_cons {X} (P : X -> Prop) x l n : counts P (x :: l) n ->
  (P x /\ exists m, n = S m /\ counts P l m) \/ (~ P x /\ counts P l n).
Proof. inversion 1; subst; eauto. Qed.

Lemma c68_bound : forall cfg l s n m, history cfg l s -> counts answered_with_token l n -> counts answered_with_code l m ->
  (size (sv_access s) <= n)%nat /\ (size (sv_refresh s) <= n)%nat /\ (size (sv_codes s) <= m)%nat.
Proof.
  intros cfg l s n m H. revert n m. induction H as [|l s o H IH]; intros n m Hn Hm.
  { cbn. rewrite !map_size_empty. lia. }
  destruct (serve_dec o) as [(ev & r & ->)|Ho].
  - destruct (size_change ev s r) as [(t & Ht & H1 & H2 & H3)|[(c & Hc & H1 & H2 & H3)|(HT & HC & H1 & H2 & H3)]]; rewrite step_serve.
    + apply counts_cons in Hn as [(_ & n' & -> & Hn)|[Hx _]].
      2:{ destruct Hx. exists ev, r, t. apply served_step. eauto. }
      apply counts_cons in Hm as [((ev' & r' & c & Hs) & _)|[_ Hm]].
      { apply served_step in Hs as ([= <- <-] & s1 & Hs). congruence. }
      destruct (IH _ _ Hn Hm) as (? & ? & ?). lia.
    + apply counts_cons in Hn as [((ev' & r' & t & Hs) & _)|[_ Hn]].
      { apply served_step in Hs as ([= <- <-] & s1 & Hs). congruence. }
      apply counts_cons in Hm as [(_ & m' & -> & Hm)|[Hx _]].
      2:{ destruct Hx. exists ev, r, c. apply served_step. eauto. }
      destruct (IH _ _ Hn Hm) as (? & ? & ?). lia.
    + apply counts_cons in Hn as [((ev' & r' & t & Hs) & _)|[_ Hn]].
      { apply served_step in Hs as ([= <- <-] & s1 & Hs). by destruct (HT _ _ Hs). }
      apply counts_cons in Hm as [((ev' & r' & c & Hs) & _)|[_ Hm]].
      { apply served_step in Hs as ([= <- <-] & s1 & Hs). by destruct (HC _ _ Hs). }
      destruct (IH _ _ Hn Hm) as (? & ? & ?). lia.
  - destruct (other_step s o Ho) as (_ & -> & -> & -> & Hs).
    apply counts_cons in Hn as [((ev' & r' & t & Hx) & _)|[_ Hn]]; [by apply Hs in Hx|].
    apply counts_cons in Hm as [((ev' & r' & t & Hx) & _)|[_ Hm]]; [by apply Hs in Hx|]. by apply IH.
Qed.

Lemma c68_kept : forall cfg l s sg, history cfg l s ->
  (is_Some (sv_access s !! sg) <-> exists ev r t, still_access (cfg_secret cfg) l sg ev r t) /\
  (is_Some (sv_refresh s !! sg) <-> exists ev r t, still_refresh (cfg_secret cfg) l sg ev r t) /\
  (is_Some (sv_codes s !! sg) <-> exists x, In x l /\ issues_code (cfg_secret cfg) x sg).
Proof.
  intros cfg l s sg H. split; [|split].
  - destruct (still_access_spec _ _ _ sg H) as (A0 & A1 & _). destruct (sv_access s !! sg) as [c|]; split.
    + intros _. exact (A1 c eq_refl).
    + eauto.
    + by intros [? ?].
    + intros (ev & r & t & Hs). by destruct (A0 eq_refl ev r t).
  - destruct (still_refresh_spec _ _ _ sg H) as (A0 & A1 & _). destruct (sv_refresh s !! sg) as [c|]; split.
    + intros _. exact (A1 c eq_refl).
    + eauto.
    + by intros [? ?].
    + intros (ev & r & t & Hs). by destruct (A0 eq_refl ev r t).
  - pose proof (code_life _ _ _ sg H) as HL. unfold code_story in HL. destruct (sv_codes s !! sg) as [d|]; split.
    + intros _. destruct HL as (x & later & _ & _ & _ & (earlier & -> & Hx & _) & _). exists x. split; [|done].
      apply in_or_app. right. by left.
    + eauto.
    + by intros [? ?].
    + intros (x & Hx & Hi). by destruct (HL x Hx).
Qed.
