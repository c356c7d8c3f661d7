(** Proofs about single calls of the server. *)
From Verif.Model Require Import Server.
From Verif.Spec Require Import TokenSpec ScopeSpec WireSpec RequestSpec ServerSpec.
From Verif.Proof Require Import StrFacts Base64Facts HsFacts TokenProofs UrlFacts UrlParse JsonFacts ScopeFacts
  ScopeProofs WireFacts WireProofs Redirect ServerFacts Steps RequestProofs RequestParse.

(** ** Vocabulary *)
Lemma names_spec secret str sg :
  names secret str sg <-> exists t, parse_token secret str = inl t /\ sg = signature_string t.
Proof.
  split.
  - intros (s0 & s1 & key & H1 & H2 & H3 & H4). exists {| hs_key := key; hs_signature := hmac_sha256 secret key |}.
    split; [|by apply canonical_unique in H4]. apply c02_accept. exists s0, s1. done.
  - intros (t & H & ->). apply c02_accept in H as (s0 & s1 & H1 & H2 & H3 & H4). exists s0, s1, (hs_key t).
    split; [done|]. split; [done|]. rewrite <- H4. split; [done|]. apply rawurl_encode_canonical.
Qed.
Lemma names_fun secret str sg sg' : names secret str sg -> names secret str sg' -> sg = sg'.
Proof. rewrite !names_spec. intros (t & H & ->) (t' & H' & ->). congruence. Qed.
Lemma names_parsed secret str t : parse_token secret str = inl t -> names secret str (signature_string t).
Proof. intros H. apply names_spec. eauto. Qed.
Lemma names_issued secret key : names secret (token_string (token_from_key secret key)) (signature_string (token_from_key secret key)).
Proof. apply names_spec. rewrite c01_proof. eauto. Qed.
Lemma not_names secret str msg : parse_token secret str = inr msg -> forall sg, ~ names secret str sg.
Proof. intros H sg. rewrite names_spec. intros (t & H' & _). congruence. Qed.

Lemma endpoint_spec r name : contains "/" name = false -> endpoint r name <-> last_segment (rq_path r) = name.
Proof.
  intros Hn. unfold endpoint, last_segment. split.
  - intros [[p ->] | ->].
    + change (p +:+ "/" +:+ name) with (p +:+ String "/" name). by rewrite last_cut_app.
    + destruct (last_cut "/" name) as [[x y]|] eqn:E; [|done]. apply last_cut_some in E as [E _].
      rewrite E, contains_app in Hn. cbn [contains] in Hn. rewrite Ascii.eqb_refl in Hn. cbn [orb] in Hn. by rewrite orb_true_r in Hn.
  - destruct (last_cut "/" (rq_path r)) as [[x y]|] eqn:E; [|by right]. apply last_cut_some in E as [E _]. intros <-. left. by exists x.
Qed.
Lemma endpoint_authorize r : endpoint r "authorize" <-> last_segment (rq_path r) = "authorize".
Proof. by apply endpoint_spec. Qed.
Lemma endpoint_token r : endpoint r "token" <-> last_segment (rq_path r) = "token".
Proof. by apply endpoint_spec. Qed.
Lemma endpoint_introspect r : endpoint r "introspect" <-> last_segment (rq_path r) = "introspect".
Proof. by apply endpoint_spec. Qed.
Lemma endpoint_revoke r : endpoint r "revoke" <-> last_segment (rq_path r) = "revoke".
Proof. by apply endpoint_spec. Qed.
Lemma other_path_spec r : other_path r <->
  last_segment (rq_path r) <> "authorize" /\ last_segment (rq_path r) <> "token" /\
  last_segment (rq_path r) <> "introspect" /\ last_segment (rq_path r) <> "revoke".
Proof.
  unfold other_path. rewrite <- endpoint_authorize, <- endpoint_token, <- endpoint_introspect, <- endpoint_revoke. split.
  - intros H. split_and!; apply H; cbn; tauto.
  - intros (H1 & H2 & H3 & H4) name Hn. by destruct Hn as [<-|[<-|[<-|[<-|[]]]]].
Qed.
Lemma bearer_spec r t : bearer r t <-> parse_bearer_token r = BToken t.
Proof. symmetry. apply c11_token. Qed.
Lemma covers_spec a b : covers a b <-> scope_includes a b = true.
Proof. symmetry. apply (c09_proof a b None ""). Qed.
Lemma authenticates_spec s id secret : authenticates s id secret <->
  exists c, sv_clients s !! id = Some c /\ client_ok c secret = true.
Proof.
  unfold authenticates, client_ok. split; intros (c & H1 & H2); exists c; (split; [done|]).
  - destruct (en_confidential c); [|done]. cbn. rewrite negb_true_iff, negb_false_iff. apply seqb_true. by apply H2.
  - intros Hc. rewrite Hc in H2. cbn in H2. rewrite negb_true_iff, negb_false_iff in H2. by apply seqb_true in H2.
Qed.
Lemma password_spec s u p : password_of s u p <-> owner_ok s u p = true.
Proof.
  unfold password_of, owner_ok. destruct (sv_users s !! u) as [e|].
  - rewrite seqb_true. split; [intros (e' & [= ->] & H); done|eauto].
  - split; [intros (e' & ? & _)|]; done.
Qed.

(** ** C27 *)
Lemma write_bearer_unsent w e : unsent w -> valid_status (e_status e) -> e_status e <> 500%Z ->
  exists w', write_bearer_error w (GErr e) = Some (w', true) /\
    challenge w' (e_status e) (if seqb (error_params e) "" then default_challenge else error_params e).
Proof.
  intros [Hs Hb] Hv H5. unfold write_bearer_error. rewrite (proj2 (Z.eqb_neq _ _) H5). cbv zeta.
  unfold write_header, header_set. cbn [rw_sent rw_header]. rewrite Hs. cbn [rw_header rw_body].
  assert ((e_status e <? 100)%Z || (999 <? e_status e)%Z = false) as ->.
  { unfold valid_status in Hv. rewrite orb_false_iff, !Z.ltb_ge. lia. }
  unfold write_bytes, write_header. cbn [rw_sent]. change (seqb "" "") with true. cbv iota.
  eexists. split; [reflexivity|]. unfold challenge, status, header_values. cbn [rw_sent rw_body].
  split; [done|]. split; [done|]. change (canonical_key "WWW-Authenticate") with "Www-Authenticate".
  unfold headers. rewrite lookup_insert. done.
Qed.

Lemma c27_granted : forall now s r required w,
  (exists w', authorize now s r required w = Some (true, w')) <->
  (exists str c, bearer r str /\ access_token s str c /\ (now <= cd_expires_at c)%Z /\ covers (cd_scope c) required).
Proof.
  intros now s r required w. unfold authorize, authorize_decision. split.
  - intros [w' H]. destruct (parse_bearer_token r) as [str| |] eqn:Eb; [|by destruct (write_bearer_error w _) as [[]|]|done].
    destruct (parse_token (cfg_secret (sv_config s)) str) as [t|] eqn:Et; [|by destruct (write_bearer_error w _) as [[]|]].
    destruct (sv_access s !! signature_string t) as [c|] eqn:Ea; [|by destruct (write_bearer_error w _) as [[]|]].
    destruct (cd_expires_at c <? now)%Z eqn:Ee; [by destruct (write_bearer_error w _) as [[]|]|].
    destruct (negb (scope_includes (cd_scope c) required)) eqn:Es; [by destruct (write_bearer_error w _) as [[]|]|].
    exists str, c. split; [by apply bearer_spec|]. split; [exists (signature_string t); split; [by apply names_parsed|done]|].
    split; [lia|]. apply covers_spec. by apply negb_false_iff in Es.
  - intros (str & c & Hb & (sg & Hn & Ha) & He & Hs). apply bearer_spec in Hb. apply names_spec in Hn as (t & Ht & ->).
    unfold server_secret in Ht. rewrite Hb, Ht, Ha. assert ((cd_expires_at c <? now)%Z = false) as -> by lia.
    apply covers_spec in Hs. rewrite Hs. eauto.
Qed.
Lemma c27_silent : forall now s r required w w',
  authorize now s r required w = Some (true, w') -> w' = w.
Proof.
  intros now s r required w w' H. unfold authorize in H. destruct (authorize_decision now s r required); [by injection H as <-| |done].
  by destruct (write_bearer_error w _) as [[]|].
Qed.

(** The refusals, in the order of the checks. *)
Lemma authorize_cases now s r required :
  (rq_auth r = "" /\ authorize_decision now s r required = Denied ProtectedResource) \/
  (rq_auth r <> "" /\ (forall str, ~ bearer r str) /\
     authorize_decision now s r required = Denied (InvalidRequest "malformed authorization header")) \/
  (exists str, bearer r str /\
    (((forall sg, ~ names (server_secret s) str sg) /\
        authorize_decision now s r required = Denied (InvalidToken "malformed token")) \/
     (exists sg, names (server_secret s) str sg /\
       ((sv_access s !! sg = None /\ authorize_decision now s r required = Denied (InvalidToken "unknown token")) \/
        (exists c, sv_access s !! sg = Some c /\
          (((cd_expires_at c < now)%Z /\ authorize_decision now s r required = Denied (InvalidToken "expired token")) \/
           ((now <= cd_expires_at c)%Z /\
             ((~ covers (cd_scope c) required /\
                 authorize_decision now s r required = Denied (InsufficientScope required)) \/
              (covers (cd_scope c) required /\ authorize_decision now s r required = Granted))))))))).
Proof.
  unfold authorize_decision. destruct (bearer_cases r) as [(H & Hp)|[(scheme & t & H & H1 & H2 & Hp)|(H & H1 & Hp)]].
  - left. rewrite Hp. done.
  - right. right. rewrite Hp. exists t. split; [by exists scheme|].
    destruct (parse_token (cfg_secret (sv_config s)) t) as [tk|msg] eqn:Et.
    2:{ left. split; [by eapply not_names|done]. }
    right. exists (signature_string tk). split; [by apply names_parsed|].
    destruct (sv_access s !! signature_string tk) as [c|]; [|by left]. right. exists c. split; [done|].
    destruct (cd_expires_at c <? now)%Z eqn:Ee; [left; split; [lia|done]|]. right. split; [lia|].
    rewrite covers_spec. destruct (scope_includes (cd_scope c) required); cbn [negb]; [right|left]; done.
  - right. left. rewrite Hp. split; [done|]. split; [|done]. intros str Hb. apply bearer_spec in Hb. congruence.
Qed.

Lemma scope_error_params sc : items sc <> [] -> error_params (InsufficientScope sc) =
  "error=" +:+ quoted "insufficient_scope" +:+ ", scope=" +:+ quoted (join " " (items sc)).
Proof.
  intros H. unfold error_params, params_order.
  assert (Hm : error_map (InsufficientScope sc) = <["scope" := scope_string sc]> {[ "error" := "insufficient_scope" ]}).
  { unfold error_map, InsufficientScope. cbn [e_name e_description e_state e_scope e_uri e_realm].
    unfold put. change (seqb "" "") with true. change (seqb "insufficient_scope" "") with false. cbv iota.
    destruct (items sc); [done|]. done. }
  rewrite Hm.
  assert (Hp : map_to_list (<["scope" := scope_string sc]> {[ "error" := "insufficient_scope" ]})
     ≡ₚ [("scope", scope_string sc); ("error", "insufficient_scope")]).
  { rewrite map_to_list_insert by (by rewrite lookup_singleton_ne). by rewrite map_to_list_singleton. }
  assert (sort_strings (map param (map_to_list (<["scope" := scope_string sc]> {[ "error" := "insufficient_scope" ]})))
    = [param ("error", "insufficient_scope"); param ("scope", scope_string sc)]) as ->; [|done].
  apply (Sorted_unique str_le).
  - apply Sorted_merge_sort, _.
  - repeat constructor.
  - unfold sort_strings. rewrite merge_sort_Permutation, Hp. apply perm_swap.
Qed.

Lemma c27_refused : forall now s r required w, unsent w ->
  (rq_auth r = "" -> exists w', authorize now s r required w = Some (false, w') /\
     challenge w' 401 ("realm=" +:+ quoted "OAuth2")) /\
  (rq_auth r <> "" -> (forall str, ~ bearer r str) -> exists w', authorize now s r required w = Some (false, w') /\
     challenge w' 400 ("error=" +:+ quoted "invalid_request" +:+ ", error_description=" +:+ quoted "malformed authorization header")) /\
  (forall str, bearer r str ->
    ((forall sg, ~ names (server_secret s) str sg) -> exists w', authorize now s r required w = Some (false, w') /\
       challenge w' 401 ("error=" +:+ quoted "invalid_token" +:+ ", error_description=" +:+ quoted "malformed token")) /\
    (forall sg, names (server_secret s) str sg ->
      (sv_access s !! sg = None -> exists w', authorize now s r required w = Some (false, w') /\
         challenge w' 401 ("error=" +:+ quoted "invalid_token" +:+ ", error_description=" +:+ quoted "unknown token")) /\
      (forall c, sv_access s !! sg = Some c ->
        ((cd_expires_at c < now)%Z -> exists w', authorize now s r required w = Some (false, w') /\
           challenge w' 401 ("error=" +:+ quoted "invalid_token" +:+ ", error_description=" +:+ quoted "expired token")) /\
        ((now <= cd_expires_at c)%Z -> ~ covers (cd_scope c) required -> exists w', authorize now s r required w = Some (false, w') /\
           challenge w' 403 ("error=" +:+ quoted "insufficient_scope" +:+ ", scope=" +:+ quoted (join " " (items required))))))).
Proof.
  intros now s r required w Hw.
  assert (HD : forall e ps, authorize_decision now s r required = Denied e -> valid_status (e_status e) -> e_status e <> 500%Z ->
     (if seqb (error_params e) "" then default_challenge else error_params e) = ps ->
     exists w', authorize now s r required w = Some (false, w') /\ challenge w' (e_status e) ps).
  { intros e ps He Hv H5 <-. unfold authorize. rewrite He.
    destruct (write_bearer_unsent w e Hw Hv H5) as (w' & -> & Hc). eauto. }
  assert (Hv : valid_status 400 /\ valid_status 401 /\ valid_status 403) by (unfold valid_status; lia).
  destruct Hv as (Hv0 & Hv1 & Hv3).
  pose proof (authorize_cases now s r required) as HC.
  split; [|split].
  - intros H. destruct HC as [(_ & HC)|[(H' & _)|(str & (sch & H' & _) & _)]]; [|done|].
    + by apply (HD _ ("realm=" +:+ quoted "OAuth2")) in HC; [|done..].
    + rewrite H in H'. by destruct sch.
  - intros Hne Hnb. destruct HC as [(H & _)|[(_ & _ & HC)|(str & Hb & _)]]; [done| |by apply Hnb in Hb].
    apply (HD _ ("error=" +:+ quoted "invalid_request" +:+ ", error_description=" +:+ quoted "malformed authorization header")) in HC; [done..|].
    vm_compute. done.
  - intros str Hb. destruct HC as [(H & _)|[(_ & H & _)|(str' & Hb' & HC)]].
    { destruct Hb as (sch & H' & _). rewrite H in H'. by destruct sch. }
    { by apply H in Hb. }
    apply bearer_spec in Hb, Hb'. assert (str' = str) as -> by congruence. split.
    + intros Hn. destruct HC as [(_ & HC)|(sg & Hs & _)]; [|by apply Hn in Hs].
      apply (HD _ ("error=" +:+ quoted "invalid_token" +:+ ", error_description=" +:+ quoted "malformed token")) in HC; [done..|].
      vm_compute. done.
    + intros sg Hs. destruct HC as [(Hn & _)|(sg' & Hs' & HC)]; [by apply Hn in Hs|].
      assert (sg' = sg) as -> by (eapply names_fun; done). split.
      * intros Hnone. destruct HC as [(_ & HC)|(c & Hc & _)]; [|congruence].
        apply (HD _ ("error=" +:+ quoted "invalid_token" +:+ ", error_description=" +:+ quoted "unknown token")) in HC; [done..|].
        vm_compute. done.
      * intros c Hc. destruct HC as [(Hnone & _)|(c' & Hc' & HC)]; [congruence|]. assert (c' = c) as -> by congruence. split.
        -- intros He. destruct HC as [(_ & HC)|(He' & _)]; [|lia].
           apply (HD _ ("error=" +:+ quoted "invalid_token" +:+ ", error_description=" +:+ quoted "expired token")) in HC; [done..|].
           vm_compute. done.
        -- intros He Hcov. destruct HC as [(He' & _)|(_ & [(_ & HC)|(Hcov' & _)])]; [lia| |done].
           apply (HD _ ("error=" +:+ quoted "insufficient_scope" +:+ ", scope=" +:+ quoted (join " " (items required)))) in HC; [done..|].
           rewrite scope_error_params; [done|]. intros Hnil. apply Hcov. unfold covers. rewrite Hnil. by intros x [].
Qed.
