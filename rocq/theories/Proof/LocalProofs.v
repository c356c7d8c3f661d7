(** Proofs about what an answer depends on and what a request changes. *)
From Verif.Model Require Import Server History.
From Verif.Spec Require Import TokenSpec ScopeSpec WireSpec RequestSpec ServerSpec HistorySpec LocalSpec.
From Verif.Proof Require Import StrFacts UrlFacts WireFacts ServerFacts Steps RequestParse ServerProofs GrantProofs EffectProofs Effects.

Inductive kind := KA | KR | KC.
Definition cell (s : server) (k : kind) (sg : string) : option credential :=
  match k with KA => sv_access s !! sg | KR => sv_refresh s !! sg | KC => sv_codes s !! sg end.
Definition rec (k : kind) (sg : string) : record :=
  match k with KA => Access sg | KR => Refresh sg | KC => Code sg end.
Definition drop_code (q : string) (v : option credential) : option credential :=
  match v with Some c => if seqb (cd_code c) q then None else Some c | None => None end.

Lemma agree_cell s1 s2 k sg : agree s1 s2 (rec k sg) <-> cell s1 k sg = cell s2 k sg.
Proof. by destruct k. Qed.

Lemma agree_refl s x : agree s s x.
Proof. by destruct x. Qed.

(** One entry in two servers, before and after. *)
Definition entry (s1 s2 : server) (r : request) (a : History.answer) (t1 t2 : server) (k : kind) (sg : string) : Prop :=
  (cell t1 k sg = cell s1 k sg /\ cell t2 k sg = cell s2 k sg) \/
  (exists c, gives (server_secret s1) a (rec k sg) /\ cell t1 k sg = Some c /\ cell t2 k sg = Some c /\
     (cd_code c = "" \/ presents_code (server_secret s1) r (cd_code c) /\
        exists d, sv_codes s1 !! cd_code c = Some d /\ cd_used d = false)) \/
  (mentions (server_secret s1) r (rec k sg) /\ cell t1 k sg = cell t2 k sg /\ (k = KC \/ cell t1 k sg = None)) \/
  (exists q, replays s1 r q /\ k <> KC /\ cell t1 k sg = drop_code q (cell s1 k sg) /\ cell t2 k sg = drop_code q (cell s2 k sg)).
Definition entries (s1 s2 : server) (r : request) (a : History.answer) (t1 t2 : server) : Prop :=
  same_registry s1 t1 /\ same_registry s2 t2 /\ forall k sg, entry s1 s2 r a t1 t2 k sg.
Definition alike (s1 s2 : server) (r : request) (x y : result) : Prop :=
  match x, y with
  | Done t1 o1, Done t2 o2 => o1 = o2 /\ entries s1 s2 r (Answered o1) t1 t2
  | Panic t1, Panic t2 => t1 = s1 /\ t2 = s2
  | _, _ => False
  end.

Lemma alike_same s1 s2 r o : alike s1 s2 r (Done s1 o) (Done s2 o).
Proof. split; [done|]. split; [done|]. split; [done|]. intros k sg. by left. Qed.

Lemma revoke_code_cell q m sg : revoke_code q m !! sg = drop_code q (m !! sg).
Proof.
  pose proof (revoke_code_without q m sg) as H. unfold drop_code.
  destruct (m !! sg) as [c|] eqn:E.
  - destruct (seqb (cd_code c) q) eqn:Eq.
    + apply seqb_true in Eq. destruct (revoke_code q m !! sg) as [c'|] eqn:E'; [|done].
      destruct (proj1 (H c') eq_refl) as [[= <-] Hn]. done.
    + apply seqb_false in Eq. by apply H.
  - destruct (revoke_code q m !! sg) as [c'|] eqn:E'; [|done]. destruct (proj1 (H c') eq_refl) as [? _]. done.
Qed.

(** The data two servers have in common at the start. *)
Definition common (s1 s2 : server) (r : request) : Prop :=
  sv_config s1 = sv_config s2 /\ forall x, mentions (server_secret s1) r x -> agree s1 s2 x.

Lemma common_client s1 s2 r id : common s1 s2 r -> acts_for r id -> sv_clients s1 !! id = sv_clients s2 !! id.
Proof. intros [_ H] Ha. exact (H (Client id) (m_client _ _ _ Ha)). Qed.
Lemma common_owner s1 s2 r p : common s1 s2 r ->
  (endpoint r "authorize" /\ rq_method r = "POST") \/ (endpoint r "token" /\ body_param r "grant_type" = "password") ->
  owner_ok s1 (body_param r "username") p = owner_ok s2 (body_param r "username") p.
Proof. intros [_ H] Ha. unfold owner_ok. pose proof (H _ (m_user _ _ Ha)) as E. cbn in E. by rewrite E. Qed.

(** Issuing. *)
Lemma issue_alike ev s1 s2 b sc id u q : sv_config s1 = sv_config s2 ->
  match issue_tokens ev s1 b sc id u q, issue_tokens ev s2 b sc id u q with
  | Some (t1, x1), Some (t2, x2) => x1 = x2 /\ same_registry s1 t1 /\ same_registry s2 t2 /\
      sv_codes t1 = sv_codes s1 /\ sv_codes t2 = sv_codes s2 /\
      exists a ca rf, names (server_secret s1) (tr_access_token x1) a /\ cd_code ca = q /\
        sv_access t1 = <[a := ca]> (sv_access s1) /\ sv_access t2 = <[a := ca]> (sv_access s2) /\
        match rf with
        | Some (f, cf) => names (server_secret s1) (tr_refresh_token x1) f /\ cd_code cf = q /\
            sv_refresh t1 = <[f := cf]> (sv_refresh s1) /\ sv_refresh t2 = <[f := cf]> (sv_refresh s2)
        | None => sv_refresh t1 = sv_refresh s1 /\ sv_refresh t2 = sv_refresh s2
        end
  | None, None => True
  | _, _ => False
  end.
Proof.
  intros Hc. destruct b.
  - pose proof (issue_both_spec ev s1 sc id u q) as H1. pose proof (issue_both_spec ev s2 sc id u q) as H2. rewrite <- Hc in H2.
    destruct (issue_tokens ev s1 _ _ _ _ _) as [[t1 x1]|], (issue_tokens ev s2 _ _ _ _ _) as [[t2 x2]|].
    + destruct H1 as (a & src & f & src' & Ha & Hf & -> & ->), H2 as (a' & src2 & f' & src2' & Ha' & Hf' & -> & ->).
      rewrite <- Hc in *. rewrite Ha in Ha'. injection Ha' as <- <-. rewrite Hf in Hf'. injection Hf' as <- <-.
      split; [done|]. split; [done|]. split; [by split|]. split; [done|]. split; [done|].
      exists (signature_string a). eexists. eexists (Some (signature_string f, _)). cbn [tr_access_token tr_refresh_token].
      split; [by eapply generated_names|]. cbn [sv_access sv_refresh]. split; [|split; [reflexivity|split; [reflexivity|]]]; [done|].
      split; [by eapply generated_names|]. split; [|split; reflexivity]. done.
    + destruct H1 as (a & src & f & src' & Ha & Hf & _). destruct H2 as [H2|(a2 & src2 & H2 & H2')]; congruence.
    + destruct H2 as (a & src & f & src' & Ha & Hf & _). rewrite <- Hc in *. destruct H1 as [H1|(a2 & src2 & H1 & H1')]; congruence.
    + done.
  - pose proof (issue_access_spec ev s1 sc id u q) as H1. pose proof (issue_access_spec ev s2 sc id u q) as H2. rewrite <- Hc in H2.
    destruct (issue_tokens ev s1 _ _ _ _ _) as [[t1 x1]|], (issue_tokens ev s2 _ _ _ _ _) as [[t2 x2]|].
    + destruct H1 as (a & src & Ha & -> & ->), H2 as (a' & src2 & Ha' & -> & ->).
      rewrite <- Hc in *. rewrite Ha in Ha'. injection Ha' as <- <-.
      split; [done|]. split; [done|]. split; [done|]. split; [done|]. split; [done|].
      exists (signature_string a). eexists. exists None. cbn [tr_access_token].
      split; [by eapply generated_names|]. cbn [sv_access sv_refresh set_access]. split; [|split; [reflexivity|split; [reflexivity|done]]]. done.
    + destruct H1 as (a & src & Ha & _). congruence.
    + destruct H2 as (a & src & Ha & _). rewrite <- Hc in *. congruence.
    + done.
Qed.

(** The same, entry by entry. *)
Definition code_ok (s : server) (r : request) (q : string) : Prop :=
  q = "" \/ presents_code (server_secret s) r q /\ exists d, sv_codes s !! q = Some d /\ cd_used d = false.
Lemma issue_entries ev s1 s2 r b sc id u q : sv_config s1 = sv_config s2 -> code_ok s1 r q ->
  match issue_tokens ev s1 b sc id u q, issue_tokens ev s2 b sc id u q with
  | Some (t1, x1), Some (t2, x2) => x1 = x2 /\ same_registry s1 t1 /\ same_registry s2 t2 /\
      sv_codes t1 = sv_codes s1 /\ sv_codes t2 = sv_codes s2 /\
      forall x, tr_access_token x = tr_access_token x1 -> tr_refresh_token x = tr_refresh_token x1 ->
      forall k sg, entry s1 s2 r (Answered (OToken x)) t1 t2 k sg
  | None, None => True
  | _, _ => False
  end.
Proof.
  intros Hc Hq. pose proof (issue_alike ev s1 s2 b sc id u q Hc) as H.
  destruct (issue_tokens ev s1 _ _ _ _ _) as [[t1 x1]|], (issue_tokens ev s2 _ _ _ _ _) as [[t2 x2]|]; [|done..].
  destruct H as (-> & R1 & R2 & C1 & C2 & a & ca & rf & Ha & Hqa & A1 & A2 & Hrf). split; [done|].
  split; [done|]. split; [done|]. split; [done|]. split; [done|]. intros x Ex Er k sg. unfold entry. destruct k; cbn [cell rec].
  - rewrite A1, A2. destruct (decide (a = sg)) as [<-|Hne].
    + right. left. exists ca. rewrite !lookup_insert. split; [|by rewrite Hqa].
      eexists. split; [done|]. exists x. by rewrite Ex.
    + left. by rewrite !lookup_insert_ne.
  - destruct rf as [[f cf]|].
    + destruct Hrf as (Hf & Hqf & F1 & F2). rewrite F1, F2. destruct (decide (f = sg)) as [<-|Hne].
      * right. left. exists cf. rewrite !lookup_insert. split; [|by rewrite Hqf].
        eexists. split; [done|]. exists x. by rewrite Er.
      * left. by rewrite !lookup_insert_ne.
    + destruct Hrf as [-> ->]. by left.
  - left. by rewrite C1, C2.
Qed.

(** ** The endpoints *)
Lemma post_form_param r k : vget (post_form r) k = body_param r k.
Proof. unfold post_form, body_param. destruct (parse_form r); [done|]. reflexivity. Qed.

Lemma authorize_alike ev s1 s2 r : common s1 s2 r -> endpoint r "authorize" ->
  alike s1 s2 r (authorization_endpoint ev s1 r) (authorization_endpoint ev s2 r).
Proof.
  intros HC He. pose proof HC as [Hcfg _]. unfold authorization_endpoint.
  destruct (parse_authorization_request r) as [req|e] eqn:Ep; [|apply alike_same].
  destruct (known_response_type (aq_response_type req)); cbn [negb]; [|apply alike_same].
  pose proof (parse_authorization_inl r req Ep) as (Hm & (f & Hf & _ & _ & _ & Hid & _) & _).
  rewrite <- (common_client s1 s2 r (aq_client_id req) HC) by (left; split; [done|]; unfold form_param; by rewrite Hf).
  destruct (sv_clients s1 !! aq_client_id req) as [c|]; [|apply alike_same].
  destruct (seqb (en_redirect_uri c) (aq_redirect_uri req)); cbn [negb]; [|apply alike_same].
  destruct (seqb (rq_method r) "GET") eqn:Eg; [apply alike_same|].
  assert (Hpost : rq_method r = "POST") by (destruct Hm as [Hm|Hm]; [rewrite Hm in Eg; discriminate Eg|done]).
  cbv zeta. rewrite !post_form_param.
  assert (Ho : owner_ok s1 (body_param r "username") (body_param r "password") = owner_ok s2 (body_param r "username") (body_param r "password"))
    by (apply (common_owner s1 s2 r); [done|by left]).
  destruct (seqb (aq_response_type req) TokenResponseType).
  - unfold handle_implicit. rewrite <- Hcfg, <- Ho. destruct (scope_includes _ _); cbn [negb]; [|apply alike_same].
    destruct (owner_ok s1 _ _); cbn [negb]; [|apply alike_same].
    pose proof (issue_entries ev s1 s2 r false (aq_scope req) (aq_client_id req) (body_param r "username") "" Hcfg (or_introl eq_refl)) as H.
    destruct (issue_tokens ev s1 _ _ _ _ _) as [[t1 x1]|], (issue_tokens ev s2 _ _ _ _ _) as [[t2 x2]|]; [|done..].
    destruct H as (-> & R1 & R2 & C1 & C2 & H). split; [done|]. split; [done|]. split; [done|]. by apply H.
  - unfold handle_code_authorization. rewrite <- Hcfg, <- Ho. destruct (scope_includes _ _); cbn [negb]; [|apply alike_same].
    destruct (owner_ok s1 _ _); cbn [negb]; [|apply alike_same].
    destruct (cfg_must_generate (sv_config s1) (ev_rand ev)) as [[q src]|] eqn:Eq; [|done]. cbv zeta.
    split; [done|]. split; [done|]. split; [done|]. intros k sg. unfold entry. destruct k; cbn [cell rec set_codes sv_access sv_refresh sv_codes]; [by left..|].
    destruct (decide (signature_string q = sg)) as [<-|Hne].
    + right. left. eexists. rewrite !lookup_insert. split; [|split; [done|split; [done|by left]]].
      eexists. split; [done|]. eexists. split; [done|]. cbn. by eapply generated_names.
    + left. by rewrite !lookup_insert_ne.
Qed.

Lemma token_acts r req : endpoint r "token" -> parse_token_request r = inl req -> acts_for r (tq_client_id req).
Proof.
  intros He Hp. right. split; [|apply parse_token_inl in Hp as (_ & Hcc & _); by rewrite Hcc].
  rewrite endpoint_authorize. apply endpoint_token in He. by rewrite He.
Qed.
Lemma lookup_acts r req seg : endpoint r seg -> seg = "introspect" \/ seg = "revoke" -> parse_lookup_request r = inl req -> acts_for r (lq_client_id req).
Proof.
  intros He Hs Hp. right. split; [|apply parse_lookup_inl in Hp as (_ & _ & Hcc & _); by rewrite Hcc].
  rewrite endpoint_authorize. destruct Hs as [-> | ->]; [apply endpoint_introspect in He|apply endpoint_revoke in He]; by rewrite He.
Qed.

Lemma plain_issue ev s1 s2 r sc id u : sv_config s1 = sv_config s2 ->
  alike s1 s2 r (match issue_tokens ev s1 true sc id u "" with None => Panic s1 | Some (s', x) => Done s' (OToken x) end)
                (match issue_tokens ev s2 true sc id u "" with None => Panic s2 | Some (s', x) => Done s' (OToken x) end).
Proof.
  intros Hcfg. pose proof (issue_entries ev s1 s2 r true sc id u "" Hcfg (or_introl eq_refl)) as H.
  destruct (issue_tokens ev s1 _ _ _ _ _) as [[t1 x1]|], (issue_tokens ev s2 _ _ _ _ _) as [[t2 x2]|]; [|done..].
  destruct H as (-> & R1 & R2 & C1 & C2 & H). split; [done|]. split; [done|]. split; [done|]. by apply H.
Qed.

Lemma token_alike ev s1 s2 r : common s1 s2 r -> endpoint r "token" ->
  alike s1 s2 r (token_endpoint ev s1 r) (token_endpoint ev s2 r).
Proof.
  intros HC He. pose proof HC as [Hcfg Hag]. unfold token_endpoint.
  destruct (parse_token_request r) as [req|e] eqn:Ep; [|apply alike_same].
  destruct (known_grant_type (tq_grant_type req)) eqn:Ek; cbn [negb]; [|apply alike_same].
  pose proof (token_acts r req He Ep) as Hacts. pose proof (common_client s1 s2 r _ HC Hacts) as Hcl. rewrite <- Hcl.
  destruct (sv_clients s1 !! tq_client_id req) as [c|] eqn:Ec; [|apply alike_same].
  destruct (client_ok c (tq_client_secret req)); cbn [negb]; [|apply alike_same].
  pose proof Ep as (Hm & Hcc & Hg & Hu & Hpw & Hrt & Hcode & _)%parse_token_inl.
  destruct (seqb (tq_grant_type req) PasswordGrantType) eqn:E1.
  { apply seqb_true in E1. unfold handle_password. rewrite Hu, <- Hcfg.
    rewrite <- (common_owner s1 s2 r _ HC) by (right; split; [done|by rewrite <- Hg]).
    destruct (owner_ok s1 _ _); cbn [negb]; [|apply alike_same]. destruct (scope_includes _ _); cbn [negb]; [|apply alike_same].
    by apply plain_issue. }
  destruct (seqb (tq_grant_type req) ClientCredentialsGrantType) eqn:E2.
  { unfold handle_client_credentials. rewrite <- Hcl, Ec, <- Hcfg. destruct (en_confidential c); cbn [negb]; [|apply alike_same].
    destruct (scope_includes _ _); cbn [negb]; [|apply alike_same]. by apply plain_issue. }
  destruct (seqb (tq_grant_type req) AuthorizationCodeGrantType) eqn:E3.
  { apply seqb_true in E3. unfold handle_code. rewrite <- Hcfg.
    destruct (parse_token (cfg_secret (sv_config s1)) (tq_code req)) as [q|msg] eqn:Eq; [|apply alike_same]. cbv zeta.
    assert (Hpr : presents_code (server_secret s1) r (signature_string q))
      by (split; [done|]; split; [by rewrite <- Hg|]; rewrite <- Hcode; by apply names_parsed).
    pose proof (Hag _ (m_code _ _ _ Hpr)) as Hcd. cbn in Hcd. rewrite <- Hcd.
    destruct (sv_codes s1 !! signature_string q) as [d|] eqn:Ed; [|apply alike_same].
    destruct (cd_used d) eqn:Eu.
    - split; [done|]. split; [done|]. split; [done|]. intros k sg. unfold entry.
      destruct k; cbn [cell rec set_access set_refresh sv_access sv_refresh sv_codes]; [..|by left]; right; right; right;
        exists (signature_string q); rewrite !revoke_code_cell; (split; [|done]); destruct Hpr as (H1 & H2 & H3); repeat (split; [done|]); by exists d.
    - destruct (_ <? _)%Z; [apply alike_same|]. destruct (seqb (cd_client_id d) _); cbn [negb]; [|apply alike_same].
      destruct (seqb (cd_redirect_uri d) _); cbn [negb]; [|apply alike_same].
      assert (Hok : code_ok s1 r (signature_string q)) by (right; split; [done|]; by exists d).
      pose proof (issue_entries ev s1 s2 r true (cd_scope d) (tq_client_id req) (cd_username d) (signature_string q) Hcfg Hok) as H.
      destruct (issue_tokens ev s1 _ _ _ _ _) as [[t1 x1]|], (issue_tokens ev s2 _ _ _ _ _) as [[t2 x2]|]; [|done..].
      destruct H as (-> & R1 & R2 & C1 & C2 & H). split; [done|]. split; [done|]. split; [done|].
      intros k sg. specialize (H x2 eq_refl eq_refl k sg). destruct k; [exact H..|]. unfold entry in *. cbn [cell rec set_codes sv_codes] in *.
      rewrite C1, C2. destruct (decide (signature_string q = sg)) as [<-|Hne].
      + right. right. left. rewrite !lookup_insert. split; [by constructor|]. split; [done|by left].
      + left. by rewrite !lookup_insert_ne. }
  assert (Hgr : body_param r "grant_type" = "refresh_token").
  { rewrite <- Hg. apply known_grants in Ek. cbn in Ek. apply seqb_false in E1, E2, E3. unfold PasswordGrantType, ClientCredentialsGrantType, AuthorizationCodeGrantType in *.
    destruct Ek as [Ek|[Ek|[Ek|[Ek|[]]]]]; congruence. }
  unfold handle_refresh. rewrite <- Hcfg.
  destruct (parse_token (cfg_secret (sv_config s1)) (tq_refresh_token req)) as [q|msg] eqn:Eq; [|apply alike_same]. cbv zeta.
  assert (Hpr : presents_refresh (server_secret s1) r (signature_string q))
    by (split; [done|]; split; [done|]; rewrite <- Hrt; by apply names_parsed).
  pose proof (Hag _ (m_refresh _ _ _ Hpr)) as Hcd. cbn in Hcd. rewrite <- Hcd.
  destruct (sv_refresh s1 !! signature_string q) as [d|] eqn:Ed; [|apply alike_same].
  destruct (_ <? _)%Z; [apply alike_same|]. destruct (seqb (cd_client_id d) _); cbn [negb]; [|apply alike_same].
  destruct (scope_includes (cd_scope d) _); cbn [negb]; [|apply alike_same].
  match goal with |- context [issue_tokens ev s1 true ?sc ?id ?u ""] =>
    pose proof (issue_entries ev s1 s2 r true sc id u "" Hcfg (or_introl eq_refl)) as H end.
  destruct (issue_tokens ev s1 _ _ _ _ _) as [[t1 x1]|], (issue_tokens ev s2 _ _ _ _ _) as [[t2 x2]|]; [|done..].
  destruct H as (-> & R1 & R2 & C1 & C2 & H). split; [done|]. split; [done|]. split; [done|].
  intros k sg. specialize (H x2 eq_refl eq_refl k sg). destruct k; [exact H| |exact H].
  destruct (decide (signature_string q = sg)) as [<-|Hne].
  - right. right. left. cbn [cell rec set_refresh sv_refresh]. rewrite !lookup_delete. split; [by constructor|]. split; [done|by right].
  - unfold entry in *. cbn [cell rec set_refresh sv_refresh] in *. by rewrite !lookup_delete_ne.
Qed.

Lemma prologue_alike s1 s2 r seg : common s1 s2 r -> endpoint r seg -> seg = "introspect" \/ seg = "revoke" ->
  lookup_prologue s1 r = lookup_prologue s2 r.
Proof.
  intros HC He Hs. pose proof HC as [Hcfg Hag]. unfold lookup_prologue. destruct (parse_lookup_request r) as [req|e] eqn:Ep; [|done].
  destruct (_ && _); [done|]. rewrite <- (common_client s1 s2 r _ HC (lookup_acts r req seg He Hs Ep)). by rewrite Hcfg.
Qed.
Lemma prologue_names s r req t seg : endpoint r seg -> seg = "introspect" \/ seg = "revoke" -> lookup_prologue s r = inl (req, t) ->
  names (server_secret s) (body_param r "token") (signature_string t).
Proof.
  intros He Hs H. unfold lookup_prologue in H. destruct (parse_lookup_request r) as [req'|e] eqn:Ep; [|done].
  destruct (_ && _); [done|]. destruct (sv_clients s !! _); [|done]. destruct (negb _); [done|].
  destruct (parse_token _ _) as [t'|] eqn:Et; [|done]. injection H as -> ->.
  apply parse_lookup_inl in Ep as (_ & _ & _ & <- & _). by apply names_parsed.
Qed.

Lemma introspect_alike s1 s2 r : common s1 s2 r -> endpoint r "introspect" ->
  alike s1 s2 r (introspection_endpoint s1 r) (introspection_endpoint s2 r).
Proof.
  intros HC He. pose proof HC as [Hcfg Hag]. unfold introspection_endpoint.
  rewrite <- (prologue_alike s1 s2 r "introspect") by tauto. destruct (lookup_prologue s1 r) as [[req t]|e] eqn:Ep; [|apply alike_same].
  assert (Hn : names (server_secret s1) (body_param r "token") (signature_string t)) by (eapply prologue_names; [exact He|by left|done]).
  cbv zeta. pose proof (Hag _ (m_lookup_access _ _ _ (or_introl He) Hn)) as Ha. pose proof (Hag _ (m_lookup_refresh _ _ _ (or_introl He) Hn)) as Hf.
  cbn in Ha, Hf. rewrite <- Ha, <- Hf. destruct (sv_access s1 !! signature_string t) as [a|].
  - destruct (seqb (cd_client_id a) _); cbn [negb]; [|apply alike_same]. destruct (sv_refresh s1 !! signature_string t) as [f|]; [|apply alike_same].
    destruct (seqb (cd_client_id f) _); cbn [negb]; apply alike_same.
  - destruct (sv_refresh s1 !! signature_string t) as [f|]; [|apply alike_same]. destruct (seqb (cd_client_id f) _); cbn [negb]; apply alike_same.
Qed.

Lemma revoke_cell id m sg : forall t, m !! sg = Some t -> cd_client_id t = id -> revoke_token id m sg = delete sg m.
Proof. intros t E Hid. unfold revoke_token. by rewrite E, Hid, seqb_refl. Qed.
Lemma revoke_alike s1 s2 r : common s1 s2 r -> endpoint r "revoke" ->
  alike s1 s2 r (revocation_endpoint s1 r) (revocation_endpoint s2 r).
Proof.
  intros HC He. pose proof HC as [Hcfg Hag]. unfold revocation_endpoint.
  rewrite <- (prologue_alike s1 s2 r "revoke") by tauto. destruct (lookup_prologue s1 r) as [[req t]|e] eqn:Ep; [|apply alike_same].
  assert (Hn : names (server_secret s1) (body_param r "token") (signature_string t)) by (eapply prologue_names; [exact He|by right|done]).
  cbv zeta. pose proof (m_lookup_access _ _ _ (or_intror He) Hn) as Ma. pose proof (m_lookup_refresh _ _ _ (or_intror He) Hn) as Mf.
  pose proof (Hag _ Ma) as Ha. pose proof (Hag _ Mf) as Hf.
  cbn in Ha, Hf. rewrite <- Ha.
  assert (Hdel : forall s1' s2' o, (s1' = s1 /\ s2' = s2 \/ s1' = set_access s1 (delete (signature_string t) (sv_access s1)) /\ s2' = set_access s2 (delete (signature_string t) (sv_access s2))) ->
    alike s1 s2 r (Done s1' o) (Done s2' o) /\
    alike s1 s2 r (Done (set_refresh s1' (delete (signature_string t) (sv_refresh s1'))) o) (Done (set_refresh s2' (delete (signature_string t) (sv_refresh s2'))) o)).
  { intros s1' s2' o Hs.
    assert (HA : forall k sg, entry s1 s2 r (Answered o) s1' s2' k sg).
    { intros k sg. destruct Hs as [[-> ->]|[-> ->]]; [by left|]. destruct k; [|by left..]. unfold entry. cbn [cell rec set_access sv_access].
      destruct (decide (signature_string t = sg)) as [<-|Hne].
      - right. right. left. rewrite !lookup_delete. split; [done|]. split; [done|by right].
      - left. by rewrite !lookup_delete_ne. }
    assert (HR : same_registry s1 s1' /\ same_registry s2 s2') by (by destruct Hs as [[-> ->]|[-> ->]]).
    assert (HF : sv_refresh s1' = sv_refresh s1 /\ sv_refresh s2' = sv_refresh s2) by (by destruct Hs as [[-> ->]|[-> ->]]).
    destruct HR as [R1 R2], HF as [F1 F2]. split; (split; [done|]); (split; [done|]); (split; [done|]); [exact HA|].
    intros k sg. specialize (HA k sg). destruct k; [exact HA| |exact HA]. unfold entry in *. cbn [cell rec set_refresh sv_refresh] in *.
    rewrite F1, F2 in *. destruct (decide (signature_string t = sg)) as [<-|Hne].
    - right. right. left. rewrite !lookup_delete. split; [done|]. split; [done|by right].
    - left. by rewrite !lookup_delete_ne. }
  destruct (sv_access s1 !! signature_string t) as [a|] eqn:Ea.
  - destruct (seqb (cd_client_id a) _) eqn:Eid; cbn [negb]; [|apply alike_same]. apply seqb_true in Eid.
    cbn [sv_refresh set_access]. rewrite <- Hf.
    rewrite (revoke_cell _ (sv_access s1) _ a), (revoke_cell _ (sv_access s2) _ a) by done.
    destruct (sv_refresh s1 !! signature_string t) as [f|] eqn:Ef; [|by apply Hdel; right].
    destruct (seqb (cd_client_id f) _) eqn:Eif; cbn [negb]; [|by apply Hdel; right]. apply seqb_true in Eif.
    rewrite (revoke_cell _ (sv_refresh s1) _ f), (revoke_cell _ (sv_refresh s2) _ f) by done.
    refine (proj2 (Hdel _ _ ORevoked _)). by right.
  - rewrite <- Hf. destruct (sv_refresh s1 !! signature_string t) as [f|] eqn:Ef; [|apply alike_same].
    destruct (seqb (cd_client_id f) _) eqn:Eif; cbn [negb]; [|apply alike_same]. apply seqb_true in Eif.
    rewrite (revoke_cell _ (sv_refresh s1) _ f), (revoke_cell _ (sv_refresh s2) _ f) by done.
    refine (proj2 (Hdel _ _ ORevoked _)). by left.
Qed.

Lemma handle_alike ev s1 s2 r : common s1 s2 r -> alike s1 s2 r (handle ev s1 r) (handle ev s2 r).
Proof.
  intros HC. destruct (decide (last_segment (rq_path r) = "authorize")) as [E|E1].
  { apply endpoint_authorize in E. rewrite !handle_authorize by done. by apply authorize_alike. }
  destruct (decide (last_segment (rq_path r) = "token")) as [E|E2].
  { apply endpoint_token in E. rewrite !handle_token by done. by apply token_alike. }
  destruct (decide (last_segment (rq_path r) = "introspect")) as [E|E3].
  { apply endpoint_introspect in E. rewrite !handle_introspect by done. by apply introspect_alike. }
  destruct (decide (last_segment (rq_path r) = "revoke")) as [E|E4].
  { apply endpoint_revoke in E. rewrite !handle_revoke by done. by apply revoke_alike. }
  rewrite !handle_other by (by apply other_path_spec). apply alike_same.
Qed.

(** ** C82 *)
Lemma alike_agree s1 s2 r a t1 t2 : entries s1 s2 r a t1 t2 -> forall x, agree s1 s2 x -> agree t1 t2 x.
Proof.
  intros ((_ & R1 & U1) & (_ & R2 & U2) & H) x Hx.
  assert (HC : forall k sg, agree s1 s2 (rec k sg) -> agree t1 t2 (rec k sg)).
  { intros k sg Hk. apply agree_cell in Hk. apply agree_cell.
    destruct (H k sg) as [[-> ->]|[(c & _ & -> & -> & _)|[(_ & E & _)|(q & _ & _ & -> & ->)]]]; [done|done|done|by rewrite Hk]. }
  destruct x as [id|name|sg|sg|sg]; [cbn in *; congruence|cbn in *; congruence|exact (HC KA sg Hx)|exact (HC KR sg Hx)|exact (HC KC sg Hx)].
Qed.

Lemma op_local s1 s2 o : sv_config s1 = sv_config s2 -> (forall x, call_mentions (server_secret s1) o x -> agree s1 s2 x) ->
  snd (do_op s1 o) = snd (do_op s2 o) /\ (forall x, agree s1 s2 x -> agree (fst (do_op s1 o)) (fst (do_op s2 o)) x) /\
  sv_config (fst (do_op s1 o)) = sv_config s1 /\ sv_config (fst (do_op s2 o)) = sv_config s2.
Proof.
  intros Hc Hm. destruct o as [ev r|now r required|id e|id|name e|name]; cbn [do_op].
  - pose proof (handle_alike ev s1 s2 r (conj Hc Hm)) as H.
    destruct (handle ev s1 r) as [t1 o1|t1], (handle ev s2 r) as [t2 o2|t2]; cbn in H; [|done|done|].
    + destruct H as [-> H]. split; [done|]. split; [by eapply alike_agree|]. by destruct H as ((? & _) & (? & _) & _).
    + destruct H as [-> ->]. done.
  - split; [|done]. cbn. unfold authorize_decision. destruct (parse_bearer_token r) as [tk|e|] eqn:Eb; [|done|done].
    rewrite Hc. destruct (parse_token (cfg_secret (sv_config s2)) tk) as [t|msg] eqn:Et; [|done].
    assert (E : agree s1 s2 (Access (signature_string t))).
    { apply Hm. exists tk, (signature_string t). unfold server_secret. rewrite Hc. split; [by apply bearer_spec|].
      split; [by apply names_parsed|done]. }
    cbn in E. by rewrite E.
  - split; [done|]. split; [|done]. intros [x|x|x|x|x] E; cbn in *; try done. destruct (decide (id = x)) as [->|Hne]; [by rewrite !lookup_insert|by rewrite !lookup_insert_ne].
  - split; [done|]. split; [|done]. intros [x|x|x|x|x] E; cbn in *; try done. destruct (decide (id = x)) as [->|Hne]; [by rewrite !lookup_delete|by rewrite !lookup_delete_ne].
  - split; [done|]. split; [|done]. intros [x|x|x|x|x] E; cbn in *; try done. destruct (decide (name = x)) as [->|Hne]; [by rewrite !lookup_insert|by rewrite !lookup_insert_ne].
  - split; [done|]. split; [|done]. intros [x|x|x|x|x] E; cbn in *; try done. destruct (decide (name = x)) as [->|Hne]; [by rewrite !lookup_delete|by rewrite !lookup_delete_ne].
Qed.

Lemma c82_serve : forall ev s1 s2 r w, sv_config s1 = sv_config s2 ->
  (forall x, mentions (server_secret s1) r x -> agree s1 s2 x) ->
  snd (serve_http ev s1 r w) = snd (serve_http ev s2 r w) /\
  forall x, agree s1 s2 x -> agree (fst (serve_http ev s1 r w)) (fst (serve_http ev s2 r w)) x.
Proof.
  intros ev s1 s2 r w Hc Hm. pose proof (handle_alike ev s1 s2 r (conj Hc Hm)) as H. unfold serve_http.
  destruct (handle ev s1 r) as [t1 o1|t1], (handle ev s2 r) as [t2 o2|t2]; cbn in H; [|done|done|].
  - destruct H as [-> H]. split; [done|]. by eapply alike_agree.
  - by destruct H as [-> ->].
Qed.
Lemma c82_authorize : forall now s1 s2 r required w, sv_config s1 = sv_config s2 ->
  (forall str sg, bearer r str -> names (server_secret s1) str sg -> agree s1 s2 (Access sg)) ->
  authorize now s1 r required w = authorize now s2 r required w.
Proof.
  intros now s1 s2 r required w Hc Hm.
  destruct (op_local s1 s2 (Check now r required) Hc) as [H _]; [intros x (str & sg & H1 & H2 & ->); by eapply Hm|].
  cbn in H. injection H as H. unfold authorize. by rewrite H.
Qed.
Lemma c82_history : forall (K : record -> Prop) s1 s2 l1 l2 t1 t2,
  run s1 l1 t1 -> run s2 l2 t2 -> map st_op l1 = map st_op l2 ->
  sv_config s1 = sv_config s2 -> (forall x, K x -> agree s1 s2 x) ->
  (forall y x, In y l1 -> call_mentions (server_secret s1) (st_op y) x -> K x) ->
  map st_answer l1 = map st_answer l2 /\ forall x, K x -> agree t1 t2 x.
Proof.
  intros K s1 s2 l1 l2 t1 t2 H1. revert l2 t2. induction H1 as [|l1 u1 o H1 IH]; intros l2 t2 H2 Hops Hc Hag HK.
  - destruct H2 as [|]; [|done]. done.
  - destruct H2 as [|l2 u2 o2 H2]; [done|]. cbn in Hops. injection Hops as <- Hops.
    assert (Hc1 : sv_config u1 = sv_config s1 /\ sv_config u2 = sv_config s2).
    { assert (HH : forall s l u, run s l u -> sv_config u = sv_config s).
      { intros s l u HR. induction HR as [|l u o' _ IH']; [done|]. rewrite <- IH'. by destruct (op_local u u o' eq_refl (fun x _ => agree_refl u x)) as (_ & _ & ? & _). }
      split; by eapply HH. }
    destruct Hc1 as [Hc1 Hc2]. destruct (IH l2 u2 H2 Hops Hc Hag) as [IHa IHk]; [intros y x Hy; apply HK; by right|].
    destruct (op_local u1 u2 o) as (E & Hx & _); [congruence| |].
    { intros x Hx. apply IHk. apply (HK (step_of u1 o)); [by left|]. unfold server_secret in *. by rewrite <- Hc1. }
    cbn [map step_of st_answer]. rewrite E, IHa. split; [done|]. intros x Kx. apply Hx. by apply IHk.
Qed.

(** ** C83 *)
Definition op_entry (s1 s2 : server) (o : op) (a : History.answer) (t1 t2 : server) (k : kind) (sg : string) : Prop :=
  (cell t1 k sg = cell s1 k sg /\ cell t2 k sg = cell s2 k sg) \/ exists ev r, o = Serve ev r /\ entry s1 s2 r a t1 t2 k sg.
Lemma op_entries s1 s2 o : sv_config s1 = sv_config s2 -> (forall x, call_mentions (server_secret s1) o x -> agree s1 s2 x) ->
  let t1 := fst (do_op s1 o) in let t2 := fst (do_op s2 o) in
  (forall id, (sv_clients t1 !! id = sv_clients s1 !! id /\ sv_clients t2 !! id = sv_clients s2 !! id) \/
     (call_mentions (server_secret s1) o (Client id) /\ sv_clients t1 !! id = sv_clients t2 !! id)) /\
  (forall n, (sv_users t1 !! n = sv_users s1 !! n /\ sv_users t2 !! n = sv_users s2 !! n) \/
     (call_mentions (server_secret s1) o (User n) /\ sv_users t1 !! n = sv_users t2 !! n)) /\
  forall k sg, op_entry s1 s2 o (snd (do_op s1 o)) t1 t2 k sg.
Proof.
  intros Hc Hm t1 t2. subst t1 t2. destruct o as [ev r|now r required|id e|id|name e|name]; cbn [do_op].
  - pose proof (handle_alike ev s1 s2 r (conj Hc Hm)) as H.
    destruct (handle ev s1 r) as [t1 o1|t1], (handle ev s2 r) as [t2 o2|t2]; cbn in H; [|done|done|].
    + destruct H as [-> ((_ & R1 & U1) & (_ & R2 & U2) & H)]. cbn [fst snd]. split; [intros id; left; by rewrite R1, R2|].
      split; [intros id; left; by rewrite U1, U2|]. intros k sg. right. exists ev, r. split; [done|]. apply H.
    + destruct H as [-> ->]. split; [by left|]. split; [by left|]. by left.
  - split; [by left|]. split; [by left|]. by left.
  - split; [|split; [by left|intros [] sg; by left]]. intros x. cbn. destruct (decide (id = x)) as [->|Hne]; [right; by rewrite !lookup_insert|left; by rewrite !lookup_insert_ne].
  - split; [|split; [by left|intros [] sg; by left]]. intros x. cbn. destruct (decide (id = x)) as [->|Hne]; [right; by rewrite !lookup_delete|left; by rewrite !lookup_delete_ne].
  - split; [by left|split; [|intros [] sg; by left]]. intros x. cbn. destruct (decide (name = x)) as [->|Hne]; [right; by rewrite !lookup_insert|left; by rewrite !lookup_insert_ne].
  - split; [by left|split; [|intros [] sg; by left]]. intros x. cbn. destruct (decide (name = x)) as [->|Hne]; [right; by rewrite !lookup_delete|left; by rewrite !lookup_delete_ne].
Qed.

Lemma drop_comm a b v : drop_code a (drop_code b v) = drop_code b (drop_code a v).
Proof. destruct v as [c|]; [|done]. cbn. destruct (seqb (cd_code c) a) eqn:Ea, (seqb (cd_code c) b) eqn:Eb; cbn; rewrite ?Ea, ?Eb; done. Qed.
Lemma drop_fresh s r1 r2 q c : replays s r1 q ->
  (cd_code c = "" \/ presents_code (server_secret s) r2 (cd_code c) /\ exists d, sv_codes s !! cd_code c = Some d /\ cd_used d = false) ->
  drop_code q (Some c) = Some c.
Proof.
  intros (_ & _ & Hn & d & Hd & Hu) Hc. cbn. destruct (seqb (cd_code c) q) eqn:E; [|done]. apply seqb_true in E. exfalso.
  destruct Hc as [Hc|(_ & d' & Hd' & Hu')].
  - apply names_nonempty in Hn. congruence.
  - congruence.
Qed.

Lemma gives_rec secret a k sg : gives secret a (rec k sg) -> exists o, a = Answered o.
Proof. intros (o & -> & _). eauto. Qed.
Lemma vacant_cell s k sg : vacant s (rec k sg) <-> cell s k sg = None.
Proof. by destruct k. Qed.

Lemma c83_commute : forall s o1 o2, independent s o1 o2 ->
  exists t, do_op (fst (do_op s o1)) o2 = (t, snd (do_op s o2)) /\ do_op (fst (do_op s o2)) o1 = (t, snd (do_op s o1)).
Proof.
  intros s o1 o2 (M1 & M2 & G1 & G2 & GD). set (s1 := fst (do_op s o1)) in *. set (s2 := fst (do_op s o2)) in *.
  assert (C1 : sv_config s1 = sv_config s) by (by destruct (op_local s s o1 eq_refl (fun x _ => agree_refl s x)) as (_ & _ & ? & _)).
  assert (C2 : sv_config s2 = sv_config s) by (by destruct (op_local s s o2 eq_refl (fun x _ => agree_refl s x)) as (_ & _ & ? & _)).
  destruct (op_local s s1 o2) as (A2 & _ & _ & C12); [done|done|]. destruct (op_local s s2 o1) as (A1 & _ & _ & C21); [done|done|].
  destruct (op_entries s s1 o2) as (CL2 & US2 & EN2); [done|done|]. destruct (op_entries s s2 o1) as (CL1 & US1 & EN1); [done|done|].
  fold s1 in CL1, US1, EN1. fold s2 in CL2, US2, EN2.
  assert (E : fst (do_op s1 o2) = fst (do_op s2 o1)).
  2:{ exists (fst (do_op s1 o2)). rewrite A1, A2. split; [by destruct (do_op s1 o2)|]. rewrite E. by destruct (do_op s2 o1). }
  set (t12 := fst (do_op s1 o2)) in *. set (t21 := fst (do_op s2 o1)) in *.
  assert (Hcl : sv_clients t12 = sv_clients t21).
  { apply map_eq. intros id. destruct (CL1 id) as [[H1 H2]|[H1 H2]], (CL2 id) as [[H3 H4]|[H3 H4]]; try congruence.
    pose proof (M1 _ H1) as E1. pose proof (M2 _ H3) as E2. cbn in E1, E2. congruence. }
  assert (Hus : sv_users t12 = sv_users t21).
  { apply map_eq. intros id. destruct (US1 id) as [[H1 H2]|[H1 H2]], (US2 id) as [[H3 H4]|[H3 H4]]; try congruence.
    pose proof (M1 _ H1) as E1. pose proof (M2 _ H3) as E2. cbn in E1, E2. congruence. }
  assert (Hcell : forall k sg, cell t12 k sg = cell t21 k sg).
  { intros k sg.
    destruct (EN1 k sg) as [[H1 H2]|(ev1 & r1 & -> & [[H1 H2]|[(c1 & G & H1 & H2 & K1)|[(MM & H1 & H2)|(q1 & R1 & NC1 & H1 & H2)]]])];
    destruct (EN2 k sg) as [[H3 H4]|(ev2 & r2 & -> & [[H3 H4]|[(c2 & G' & H3 & H4 & K2)|[(MM' & H3 & H4)|(q2 & R2 & NC2 & H3 & H4)]]])];
      try congruence.
    - (* given away by both *) exfalso. eapply GD. by split.
    - (* given away by 1, mentioned by 2 *) exfalso. pose proof (M2 _ MM') as E2. apply agree_cell in E2. apply G1, vacant_cell in G. congruence.
    - (* given away by 1, replay by 2 *) rewrite H4, H2, H1. by apply (drop_fresh s r2 r1).
    - (* mentioned by 1, given away by 2 *) exfalso. pose proof (M1 _ MM) as E2. apply agree_cell in E2. apply G2, vacant_cell in G'. congruence.
    - (* mentioned by both *) pose proof (M2 _ MM') as E2. pose proof (M1 _ MM) as E1. apply agree_cell in E1, E2. congruence.
    - (* mentioned by 1, replay by 2 *) destruct H2 as [->|H2]; [done|]. rewrite H4, <- H1, H2. done.
    - (* replay by 1, given away by 2 *) rewrite H2, H3, H4. symmetry. by apply (drop_fresh s r1 r2).
    - (* replay by 1, mentioned by 2 *) destruct H4 as [->|H4]; [done|]. rewrite H2, <- H3, H4. done.
    - rewrite H4, H1, H2, H3. apply drop_comm. }
  destruct t12 as [c12 cl12 us12 a12 f12 k12], t21 as [c21 cl21 us21 a21 f21 k21]. cbn in *.
  f_equal; [congruence|done|done|apply map_eq; apply (Hcell KA)|apply map_eq; apply (Hcell KR)|apply map_eq; apply (Hcell KC)].
Qed.

Lemma changed_why s ev r k sg : cell (fst (do_op s (Serve ev r))) k sg = cell s k sg \/
  gives (server_secret s) (snd (do_op s (Serve ev r))) (rec k sg) \/ mentions (server_secret s) r (rec k sg) \/ exists q, replays s r q.
Proof.
  destruct (op_entries s s (Serve ev r) eq_refl (fun x _ => agree_refl s x)) as (_ & _ & H). specialize (H k sg).
  destruct H as [[H _]|(ev' & r' & [= <- <-] & [[H _]|[(c & G & _)|[(M & _)|(q & R & _)]]])]; [by left|by left|by right; left|by right; right; left|].
  right; right; right; by exists q.
Qed.
Lemma serve_registry s ev r : sv_clients (fst (do_op s (Serve ev r))) = sv_clients s /\ sv_users (fst (do_op s (Serve ev r))) = sv_users s.
Proof.
  pose proof (handle_alike ev s s r (conj eq_refl (fun x _ => agree_refl s x))) as H. cbn [do_op].
  destruct (handle ev s r) as [t o|t]; cbn in H; [by destruct H as (_ & (_ & ? & ?) & _)|by destruct H as [-> _]].
Qed.

Lemma c83_requests : forall s ev1 r1 ev2 r2, let secret := server_secret s in
  let a1 := snd (do_op s (Serve ev1 r1)) in let a2 := snd (do_op s (Serve ev2 r2)) in
  (forall x, mentions secret r1 x -> mentions secret r2 x -> (exists id, x = Client id) \/ (exists n, x = User n)) ->
  (forall q, ~ replays s r1 q) -> (forall q, ~ replays s r2 q) ->
  (forall x, gives secret a1 x -> vacant s x /\ ~ gives secret a2 x /\ ~ mentions secret r2 x) ->
  (forall x, gives secret a2 x -> vacant s x /\ ~ mentions secret r1 x) ->
  independent s (Serve ev1 r1) (Serve ev2 r2).
Proof.
  intros s ev1 r1 ev2 r2 secret a1 a2 HM N1 N2 G1 G2.
  assert (Hside : forall r ev' r', (forall x, mentions secret r x -> mentions secret r' x -> (exists id, x = Client id) \/ (exists n, x = User n)) ->
    (forall q, ~ replays s r' q) -> (forall x, gives secret (snd (do_op s (Serve ev' r'))) x -> ~ mentions secret r x) ->
    forall x, mentions secret r x -> agree s (fst (do_op s (Serve ev' r'))) x).
  { intros r ev' r' HM' N G x Hx. destruct (serve_registry s ev' r') as [HC HU].
    assert (HK : forall k sg, x = rec k sg -> agree s (fst (do_op s (Serve ev' r'))) x).
    { intros k sg ->. apply agree_cell. destruct (changed_why s ev' r' k sg) as [|[Hg|[Hm|[q Hq]]]]; [done|..]; exfalso;
      [by eapply G|destruct (HM' _ Hx Hm) as [[id E]|[n E]]; by destruct k|by eapply N]. }
    destruct x as [id|n|sg|sg|sg]; [unfold agree; by rewrite HC|unfold agree; by rewrite HU|by apply (HK KA sg)|by apply (HK KR sg)|by apply (HK KC sg)]. }
  split; [|split; [|split; [|split]]].
  - apply Hside; [exact HM|done|]. intros x Hg. by destruct (G2 x Hg).
  - apply Hside; [intros x Ha Hb; by apply HM|done|]. intros x Hg. by destruct (G1 x Hg) as (_ & _ & ?).
  - intros x Hg. by destruct (G1 x Hg).
  - intros x Hg. by destruct (G2 x Hg).
  - intros x [Ha Hb]. by destruct (G1 x Ha) as (_ & ? & _).
Qed.
