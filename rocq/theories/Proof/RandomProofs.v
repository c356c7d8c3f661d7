(** Proofs of C99. *)
From Verif.Model Require Import Server.
From Verif.Spec Require Import TokenSpec ServerSpec ForgerySpec RandomSpec.
From Verif.Proof Require Import StrFacts Base64Facts HsFacts TokenProofs ServerFacts Steps GrantProofs ServerProofs.

#[local] Opaque hmac_sha256.

Lemma generate_key s source : exists n, Z.of_nat n = Z.max 0 (cfg_key_length (sv_config s)) /\
  match cfg_must_generate (sv_config s) source with
  | Some (t, rest) => (0 <= cfg_key_length (sv_config s))%Z /\ exists key, t = token_from_key (server_secret s) key /\
      source = key +:+ rest /\ slen key = n
  | None => (cfg_key_length (sv_config s) < 0)%Z \/ slen source < n
  end.
Proof.
  exists (Z.to_nat (cfg_key_length (sv_config s))). split; [lia|]. unfold cfg_must_generate, must_generate, generate.
  destruct (Z.ltb_spec (cfg_key_length (sv_config s)) 0) as [Hn|Hn]; [by left|].
  destruct (read_full_spec (Z.to_nat (cfg_key_length (sv_config s))) source) as [H1 H2].
  destruct (Nat.ltb_spec (slen source) (Z.to_nat (cfg_key_length (sv_config s)))) as [Hl|Hl].
  - rewrite H2 by done. by right.
  - destruct (H1 Hl) as (k & x & -> & -> & Hk). split; [done|]. by exists k.
Qed.
Lemma spells_issued secret key : spells secret key (token_string (token_from_key secret key)).
Proof.
  exists (rawurl_encode key), (rawurl_encode (hmac_sha256 secret key)). split; [done|]. split; apply rawurl_encode_canonical.
Qed.
Lemma generated s source t rest : cfg_must_generate (sv_config s) source = Some (t, rest) ->
  exists key, next_key s source key rest /\ spells (server_secret s) key (token_string t).
Proof.
  intros H. destruct (generate_key s source) as (n & Hn & Hg). rewrite H in Hg. destruct Hg as (Hp & key & -> & Hs & Hk).
  exists key. split; [split; [done|lia]|]. apply spells_issued.
Qed.
Lemma both_spelled ev s sc client username code s' t : issued_both ev s sc client username code s' t ->
  exists key rest key' rest', next_key s (ev_rand ev) key rest /\ spells (server_secret s) key (tr_access_token t) /\
    next_key s rest key' rest' /\ spells (server_secret s) key' (tr_refresh_token t).
Proof.
  intros (a & src & f & src' & Ha & Hf & -> & _). apply generated in Ha as (key & Ha & Hk). apply generated in Hf as (key' & Hf & Hk').
  exists key, src, key', src'. done.
Qed.

#[local] Opaque handle parse_token.
Lemma c99_tokens : forall ev s r s' t, handle ev s r = Done s' (OToken t) ->
  exists key rest, next_key s (ev_rand ev) key rest /\ spells (server_secret s) key (tr_access_token t) /\
    (tr_refresh_token t = "" \/
     exists key' rest', next_key s rest key' rest' /\ spells (server_secret s) key' (tr_refresh_token t)).
Proof.
  intros ev s r s' t H. apply handled_of in H. inversion H; subst; clear H.
  1: { match goal with Hi : issued_access _ _ _ _ _ _ _ _ |- _ => destruct Hi as (a & src & Ha & -> & _) end.
       apply generated in Ha as (key & Ha & Hk). exists key, src. split; [done|]. split; [done|]. by left. }
  all: match goal with Hi : issued_both _ _ _ _ _ _ _ _ |- _ => apply both_spelled in Hi as (key & rest & key' & rest' & K1 & K2 & K3 & K4) end;
    exists key, rest; split; [done|]; split; [done|]; right; by exists key', rest'.
Qed.
Lemma c99_codes : forall ev s r s' c, handle ev s r = Done s' (OCode c) ->
  exists key rest, next_key s (ev_rand ev) key rest /\ spells (server_secret s) key (cr_code c).
Proof.
  intros ev s r s' c H. apply handled_of in H. inversion H; subst; clear H.
  match goal with Hg : cfg_must_generate _ _ = Some _ |- _ => apply generated in Hg as (key & Ha & Hk) end. by exists key, src.
Qed.

Lemma next_key_fun s source key rest key' rest' : next_key s source key rest -> next_key s source key' rest' -> key = key' /\ rest = rest'.
Proof.
  intros (-> & H1) (H2 & H3). assert (Hl : slen key = slen key') by lia. clear H1 H3.
  revert key' Hl H2. induction key as [|a key IH]; intros [|b key'] Hl H2; try discriminate Hl; [by split|].
  rewrite !app_cons_s in H2. injection H2 as -> H2. injection Hl as Hl. destruct (IH _ Hl H2) as [-> ->]. done.
Qed.
Lemma spells_key secret key str : spells secret key str -> carries_key str key.
Proof.
  intros (s0 & s1 & -> & H0 & H1). apply canonical_unique in H0 as ->. apply canonical_unique in H1 as ->.
  assert (Hx : parse_token secret (token_string (token_from_key secret key)) = inl (token_from_key secret key)) by apply c01_proof.
  apply c02_accept in Hx as (s0 & s1 & H1 & H2 & _). by exists s0, s1.
Qed.
Lemma carries_fun str k k' : carries_key str k -> carries_key str k' -> k = k'.
Proof.
  intros (s0 & s1 & (-> & H1 & H2) & H3) (s0' & s1' & (He & H1' & H2') & H3').
  assert (s0 = s0') as <-.
  { clear -He H1 H1'. revert s0' He H1'. induction s0 as [|a s0 IH]; intros [|b s0'] He H1'; [done|..].
    - change (String "." s1 = String b (s0' +:+ "." +:+ s1')) in He. injection He as <- _. by destruct H1'; left.
    - change (String a (s0 +:+ "." +:+ s1) = String "." s1') in He. injection He as -> _. by destruct H1; left.
    - change (String a (s0 +:+ "." +:+ s1) = String b (s0' +:+ "." +:+ s1')) in He. injection He as -> He.
      f_equal. apply IH; [by intros Hx; apply H1; right|done|by intros Hx; apply H1'; right]. }
  exact (denotes_fun _ _ _ H3 H3').
Qed.
Lemma c99_distinct : forall secret key key' str str', spells secret key str -> spells secret key' str' ->
  key = key' <-> str = str'.
Proof.
  intros secret key key' str str' H H'. split.
  - intros <-. destruct H as (s0 & s1 & -> & H0 & H1), H' as (s0' & s1' & -> & H0' & H1').
    apply canonical_unique in H0 as ->. apply canonical_unique in H1 as ->. apply canonical_unique in H0' as ->. by apply canonical_unique in H1' as ->.
  - intros <-. exact (carries_fun _ _ _ (spells_key _ _ _ H) (spells_key _ _ _ H')).
Qed.

(** ** Other bytes *)
#[local] Transparent handle.
Lemma issue_alike ev ev' s both sc client username code : other_bytes ev ev' ->
  match issue_tokens ev s both sc client username code, issue_tokens ev' s both sc client username code with
  | Some (_, t), Some (_, u) =>
      tr_token_type t = tr_token_type u /\ tr_expires_in t = tr_expires_in u /\ tr_scope t = tr_scope u /\
      tr_state t = tr_state u /\ tr_redirect_uri t = tr_redirect_uri u /\ (tr_refresh_token t = "" <-> tr_refresh_token u = "")
  | None, None => True
  | _, _ => False
  end.
Proof.
  intros (_ & _ & _ & _ & Hl). unfold issue_tokens. cbv zeta.
  destruct (generate_key s (ev_rand ev)) as (n & Hn & Hg), (generate_key s (ev_rand ev')) as (n' & Hn' & Hg').
  destruct (cfg_must_generate (sv_config s) (ev_rand ev)) as [[a src]|], (cfg_must_generate (sv_config s) (ev_rand ev')) as [[a' src']|].
  4: done.
  3: { destruct Hg' as (? & k & _ & Hs & Hk). rewrite <- Hl, Hs, slen_app in Hg. destruct Hg; lia. }
  2: { destruct Hg as (? & k & _ & Hs & Hk). rewrite Hl, Hs, slen_app in Hg'. destruct Hg'; lia. }
  destruct Hg as (Hp & k & -> & Hs & Hk), Hg' as (_ & k' & -> & Hs' & Hk').
  rewrite Hs, Hs', !slen_app in Hl. destruct both; [|done].
  destruct (generate_key s src) as (m & Hm & Hf), (generate_key s src') as (m' & Hm' & Hf').
  destruct (cfg_must_generate (sv_config s) src) as [[f x]|], (cfg_must_generate (sv_config s) src') as [[f' x']|].
  4: done.
  3: { destruct Hf' as (? & q & _ & Hq & Hk2). rewrite Hq, slen_app in Hl. destruct Hf; lia. }
  2: { destruct Hf as (? & q & _ & Hq & Hk2). rewrite Hq, slen_app in Hl. destruct Hf'; lia. }
  cbn. split_and!; try done. assert (Hx : forall z, token_string z <> "").
  { intros z. unfold token_string. intros E. apply (f_equal slen) in E. rewrite !slen_app in E. cbn in E. lia. }
  split; intros E; by apply Hx in E.
Qed.
Lemma code_alike ev ev' s : other_bytes ev ev' ->
  match cfg_must_generate (sv_config s) (ev_rand ev), cfg_must_generate (sv_config s) (ev_rand ev') with
  | Some _, Some _ | None, None => True
  | _, _ => False
  end.
Proof.
  intros H. pose proof (issue_alike ev ev' s false None "" "" "" H) as Hi. unfold issue_tokens in Hi. cbv zeta in Hi.
  by destruct (cfg_must_generate (sv_config s) (ev_rand ev)) as [[??]|], (cfg_must_generate (sv_config s) (ev_rand ev')) as [[??]|].
Qed.

Ltac issue_case H :=
  match goal with
  | |- alike (match issue_tokens ?ev ?s ?b ?sc ?c ?u ?k with _ => _ end) (match issue_tokens ?ev' _ _ _ _ _ _ with _ => _ end) =>
      pose proof (issue_alike ev ev' s b sc c u k H);
      destruct (issue_tokens ev s b sc c u k) as [[??]|], (issue_tokens ev' s b sc c u k) as [[??]|]; try done;
      [|apply alike_same]
  end.
Lemma c99_other_bytes : forall ev ev' s r, other_bytes ev ev' -> alike (handle ev s r) (handle ev' s r).
Proof.
  intros ev ev' s r H. unfold handle. cbv zeta. pose proof H as (Hc & _ & _ & Hk & _).
  destruct (seqb (last_segment (rq_path r)) "authorize").
  { unfold authorization_endpoint. destruct (parse_authorization_request r) as [req|e]; [|apply alike_same].
    destruct (negb _); [apply alike_same|]. destruct (sv_clients s !! _) as [c|]; [|apply alike_same].
    destruct (negb _); [apply alike_same|]. destruct (seqb (rq_method r) "GET"); [apply alike_same|]. cbv zeta.
    destruct (seqb (aq_response_type req) TokenResponseType).
    - unfold handle_implicit. destruct (negb _); [apply alike_same|]. destruct (negb _); [apply alike_same|].
      issue_case H. constructor; cbn; tauto.
    - unfold handle_code_authorization. destruct (negb _); [apply alike_same|]. destruct (negb _); [apply alike_same|].
      pose proof (code_alike ev ev' s H) as Hx. cbv zeta.
      destruct (cfg_must_generate (sv_config s) (ev_rand ev)) as [[??]|], (cfg_must_generate (sv_config s) (ev_rand ev')) as [[??]|]; try done;
      by constructor. }
  destruct (seqb (last_segment (rq_path r)) "token").
  { unfold token_endpoint. destruct (parse_token_request r) as [req|e]; [|apply alike_same].
    destruct (negb _); [apply alike_same|]. destruct (sv_clients s !! _) as [c|]; [|apply alike_same].
    destruct (negb _); [apply alike_same|].
    destruct (seqb (tq_grant_type req) PasswordGrantType).
    { unfold handle_password. destruct (negb _); [apply alike_same|]. destruct (negb _); [apply alike_same|].
      issue_case H. constructor; tauto. }
    destruct (seqb (tq_grant_type req) ClientCredentialsGrantType).
    { unfold handle_client_credentials. destruct (sv_clients s !! _) as [c'|]; [|apply alike_same].
      destruct (negb _); [apply alike_same|]. destruct (negb _); [apply alike_same|]. issue_case H. constructor; tauto. }
    destruct (seqb (tq_grant_type req) AuthorizationCodeGrantType).
    - unfold handle_code. destruct (parse_token _ _) as [k|]; [|apply alike_same]. cbv zeta. rewrite Hc.
      destruct (sv_codes s !! _) as [d|]; [|apply alike_same]. destruct (cd_used d); [apply alike_same|].
      destruct (_ <? _)%Z; [apply alike_same|]. destruct (negb _); [apply alike_same|]. destruct (negb _); [apply alike_same|].
      issue_case H. constructor; tauto.
    - unfold handle_refresh. destruct (parse_token _ _) as [k|]; [|apply alike_same]. cbv zeta. rewrite Hc.
      destruct (sv_refresh s !! _) as [d|]; [|apply alike_same].
      destruct (_ <? _)%Z; [apply alike_same|]. destruct (negb _); [apply alike_same|]. destruct (negb _); [apply alike_same|].
      issue_case H. constructor; tauto. }
  apply alike_same.
Qed.

#[local] Opaque handle.
Lemma c99_any_key : forall ev ev' s r s1 t key rest, handle ev s r = Done s1 (OToken t) -> other_bytes ev ev' ->
  next_key s (ev_rand ev') key rest ->
  exists s2 u, handle ev' s r = Done s2 (OToken u) /\ spells (server_secret s) key (tr_access_token u).
Proof.
  intros ev ev' s r s1 t key rest Hh Ho Hk. pose proof (c99_other_bytes ev ev' s r Ho) as Ha. rewrite Hh in Ha.
  assert (exists s2 u, handle ev' s r = Done s2 (OToken u)) as (s2 & u & Hu) by (inversion Ha; eauto).
  exists s2, u. split; [done|]. destruct (c99_tokens _ _ _ _ _ Hu) as (key' & rest' & Hk' & Hs & _).
  by destruct (next_key_fun _ _ _ _ _ _ Hk Hk') as [<- _].
Qed.
Lemma c99_any_code : forall ev ev' s r s1 c key rest, handle ev s r = Done s1 (OCode c) -> other_bytes ev ev' ->
  next_key s (ev_rand ev') key rest ->
  exists s2 d, handle ev' s r = Done s2 (OCode d) /\ spells (server_secret s) key (cr_code d).
Proof.
  intros ev ev' s r s1 c key rest Hh Ho Hk. pose proof (c99_other_bytes ev ev' s r Ho) as Ha. rewrite Hh in Ha.
  assert (exists s2 d, handle ev' s r = Done s2 (OCode d)) as (s2 & d & Hu) by (inversion Ha; eauto).
  exists s2, d. split; [done|]. destruct (c99_codes _ _ _ _ _ Hu) as (key' & rest' & Hk' & Hs).
  by destruct (next_key_fun _ _ _ _ _ _ Hk Hk') as [<- _].
Qed.
