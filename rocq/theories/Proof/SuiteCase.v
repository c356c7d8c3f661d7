(** The server of server_test.go is as its specification says; and a concrete run. *)
From Verif.Model Require Import Client Suite.
From Verif.Spec Require Import ScopeSpec WireSpec RequestSpec ServerSpec NumberSpec SuiteSpec SuiteCases.
From Verif.Proof Require Import StrFacts HsFacts TokenProofs ScopeFacts ScopeProofs Redirect WireProofs ServerProofs GrantProofs SuiteFacts SuiteProofs.

Lemma invalid_names sg : ~ names "secret" "invalid" sg.
Proof. eapply not_names. vm_compute. reflexivity. Qed.

#[local] Opaque handle parse_token.

Lemma made_names k : (exists src rest, cfg_must_generate test_config src = Some (k, rest)) ->
  names "secret" (token_string k) (signature_string k).
Proof. intros (src & rest & H). exact (generated_names _ _ _ _ H). Qed.
Lemma made_filled k : names "secret" (token_string k) (signature_string k) -> token_string k <> "".
Proof. intros H E. rewrite E in H. by apply names_empty in H. Qed.

Lemma nodup_ne {A} (l : list A) i j x y : NoDup l -> l !! i = Some x -> l !! j = Some y -> i <> j -> x <> y.
Proof. intros Hd Hi Hj Hne ->. apply Hne. by eapply NoDup_lookup. Qed.
Ltac apart Hd i j := exact (nodup_ne _ i j _ _ Hd eq_refl eq_refl ltac:(discriminate)).

Lemma test_path name : In name ["token"; "authorize"; "introspect"; "revoke"] ->
  leads_to test_resource ("/oauth2/" +:+ name) name.
Proof.
  intros H. unfold leads_to.
  destruct H as [<-|[<-|[<-|[<-|[]]]]]; eexists; (split; [vm_compute; reflexivity|]); (split; [reflexivity|]);
    (split; [reflexivity|]); left; exists "/oauth2"; reflexivity.
Qed.
Lemma foo_bar_good : Forall good_item ["foo"; "bar"].
Proof. apply (c08_proof (Some ["foo"; "bar"])). vm_compute. reflexivity. Qed.
Ltac utf8 := apply ascii_utf8; vm_compute; reflexivity.
Lemma foo_bar_utf8 : Forall valid_utf8 ["foo"; "bar"].
Proof. repeat constructor; utf8. Qed.
Lemma callback_ascii : ascii_text "http://example.com/callback1".
Proof.
  unfold ascii_text. intros a Ha. assert (Hf : forallb (fun a => (Ascii.N_of_ascii a <? 128)%N) (list_ascii_of_string "http://example.com/callback1") = true) by (vm_compute; reflexivity).
  rewrite forallb_forall in Hf. by apply N.ltb_lt, Hf.
Qed.
Lemma too_much a : In a ["baz"; "foo bar baz"] -> ~ covers test_allowed (parse_scope a).
Proof. intros Ha H. apply covers_spec in H. destruct Ha as [<-|[<-|[]]]; vm_compute in H; discriminate H. Qed.
Lemma test_owner t now u p : owner_ok (test_server t now) u p = seqb u "user1" && seqb p "foo".
Proof.
  unfold owner_ok. cbn [sv_users test_server]. destruct (seqb u "user1") eqn:E.
  - apply seqb_true in E. subst. rewrite lookup_singleton. cbn [en_secret andb]. apply eq_true_iff_eq.
    rewrite !seqb_true. split; congruence.
  - apply seqb_false in E. rewrite lookup_singleton_ne; [done|congruence].
Qed.
Lemma test_password t now u p : password_of (test_server t now) u p <-> u = "user1" /\ p = "foo".
Proof. rewrite password_spec, test_owner, andb_true_iff, !seqb_true. done. Qed.

Lemma test_server_described t now pw cc im co re intro revoke t1 : well_made t ->
  intro = "" \/ intro = "/oauth2/introspect" -> revoke = "" \/ revoke = "/oauth2/revoke" ->
  (t1 <= now + 3600 * second)%Z -> int64 ((now + 3600 * second) / 1000000000) ->
  described test_resource test_required (test_spec t pw cc im co re intro revoke)
    (test_server t now) now t1.
Proof.
  intros [Hm Hd] Hi Hv Ht1 Hint. unfold test_token_list in Hm, Hd. rewrite !Forall_cons in Hm.
  destruct Hm as (M1 & M2 & M3 & M4 & M5 & M6 & M7 & M8 & M9 & _).
  apply made_names in M1, M2, M3, M4, M5, M6, M7, M8, M9.
  cbn [map] in Hd.
  exists "http://example.com/callback1", ["foo"; "bar"].
  split.
  { unfold complete_spec. cbn [test_spec sp_token sp_authorize sp_resource sp_client sp_secret sp_public
     sp_invalid_scope sp_valid_scope sp_exceeding_scope sp_invalid_token sp_valid_token sp_unknown_token sp_expired_token
     sp_invalid_redirect sp_primary_redirect sp_secondary_redirect sp_invalid_params sp_valid_params sp_owner sp_owner_password
     sp_invalid_code sp_unknown_code sp_expired_code sp_invalid_refresh sp_unknown_refresh sp_valid_refresh sp_expired_refresh].
    split; [repeat apply Forall_cons_2; try discriminate; try (by apply made_filled); constructor|].
    split; [intros _; split; [by repeat constructor|]; split; left; discriminate|].
    split; [intros _; split; discriminate|].
    split; [intros _; split; [discriminate|]; split; by apply made_filled|].
    intros _. split; [discriminate|]. split; [by apply made_filled|]. split; by apply made_filled. }
  split; [apply (test_path "token"); by left|].
  split; [apply (test_path "authorize"); by right; left|].
  split; [destruct Hi as [->| ->]; [by left|right; apply (test_path "introspect"); by right; right; left]|].
  split; [destruct Hv as [->| ->]; [by left|right; apply (test_path "revoke"); by right; right; right; left]|].
  split; [eexists; split; [vm_compute; reflexivity|reflexivity]|].
  split.
  { unfold clients_described. cbn [test_spec sp_client sp_secret sp_public test_server sv_clients].
    split; [eexists; split; [reflexivity|done]|]. split; [discriminate|].
    split; [apply without_contains; reflexivity|]. split; [utf8|].
    split; [eexists; split; [reflexivity|done]|]. split; [apply without_contains; reflexivity|].
    split; reflexivity. }
  split.
  { unfold scopes_described. cbn [test_spec sp_valid_scope sp_invalid_scope sp_exceeding_scope test_server sv_config
      test_config default_server_config cfg_allowed_scope].
    split; [reflexivity|]. split; [discriminate|]. split; [exact foo_bar_good|]. split; [exact foo_bar_utf8|].
    split; [apply incl_refl|]. split; [intros x [<-|[]]; by left|].
    split; apply too_much; [by left|by right; left]. }
  split.
  { unfold users_described. rewrite !test_password. cbn [test_spec sp_owner sp_owner_password sp_valid_params sp_invalid_params].
    split; intros _.
    - split; [done|]. split; [utf8|]. split; [intros [E _]; discriminate E|intros [_ E]; discriminate E].
    - split; [done|]. split; [utf8|]. split; [intros [_ E]; discriminate E|intros [E _]; discriminate E]. }
  split.
  { intros _. cbn [test_spec sp_primary_redirect sp_invalid_redirect sp_secondary_redirect].
    split; [vm_compute; reflexivity|].
    split.
    { eexists. split; [vm_compute; reflexivity|]. split; [discriminate|].
      intros k [<-|[<-|[<-|[]]]]; vm_compute; reflexivity. }
    split; [exact callback_ascii|]. split; [apply without_contains; reflexivity|].
    split; [vm_compute; discriminate|].
    eexists. split; [vm_compute; reflexivity|]. split; [discriminate|]. vm_compute. eauto. }
  assert (Hread : readable (test_credential test_allowed (now + 3600 * second))).
  { split; [utf8|]. split; [exact foo_bar_utf8|exact Hint]. }
  split.
  { unfold tokens_described, server_secret. cbn [test_spec sp_invalid_token sp_unknown_token sp_valid_token sp_expired_token sp_insufficient_token sp_client
      test_server sv_config test_config default_server_config cfg_secret sv_access sv_refresh].
    split; [intros sg; apply invalid_names|].
    split.
    { eexists. split; [exact M1|]. repeat apply Forall_cons_2; [..|constructor].
      - rewrite !lookup_insert_ne, lookup_singleton_ne; [done|apart Hd 3 0|apart Hd 2 0|apart Hd 1 0].
      - rewrite !lookup_insert_ne, lookup_singleton_ne; [done|apart Hd 6 0|apart Hd 5 0]. }
    split.
    { eexists _, _. split; [exact M2|]. split; [apply lookup_insert|].
      split; [rewrite !lookup_insert_ne, lookup_singleton_ne; [done|apart Hd 6 1|apart Hd 5 1]|].
      split; [reflexivity|]. split; [exact Ht1|]. split; [intros x [<-|[]]; by left|]. split; [reflexivity|exact Hread]. }
    split.
    { eexists. split.
      - eexists. split; [exact M3|]. cbn [sv_access test_server]. rewrite lookup_insert_ne by apart Hd 1 2. apply lookup_insert.
      - cbn [cd_expires_at test_credential]. unfold second. lia. }
    eexists. split.
    - eexists. split; [exact M4|]. cbn [sv_access test_server].
      rewrite lookup_insert_ne by apart Hd 1 3. rewrite lookup_insert_ne by apart Hd 2 3. apply lookup_singleton.
    - split; [exact Ht1|]. intros H. specialize (H "foo" (or_introl eq_refl)). destruct H. }
  split.
  { intros _. unfold server_secret. cbn [test_spec sp_invalid_refresh sp_unknown_refresh sp_valid_refresh sp_expired_refresh sp_client
      test_server sv_config test_config default_server_config cfg_secret sv_access sv_refresh].
    split; [intros sg; apply invalid_names|].
    split.
    { eexists. split; [exact M5|]. apply Forall_cons_2; [|constructor].
      rewrite !lookup_insert_ne, lookup_singleton_ne; [done|apart Hd 6 4|apart Hd 5 4]. }
    split.
    { eexists _, _. split; [exact M6|]. split; [apply lookup_insert|].
      split; [rewrite !lookup_insert_ne, lookup_singleton_ne; [done|apart Hd 3 5|apart Hd 2 5|apart Hd 1 5]|].
      split; [reflexivity|]. split; [exact Ht1|]. split; [reflexivity|]. split; [reflexivity|exact Hread]. }
    eexists. split.
    - eexists. split; [exact M7|]. cbn [sv_refresh test_server]. rewrite lookup_insert_ne by apart Hd 5 6. apply lookup_singleton.
    - split; [cbn [cd_expires_at test_credential]; unfold second; lia|reflexivity]. }
  split.
  { intros _. unfold server_secret. cbn [test_spec sp_invalid_code sp_unknown_code sp_expired_code
      test_server sv_config test_config default_server_config cfg_secret sv_codes].
    split; [intros sg; apply invalid_names|].
    split.
    { eexists. split; [exact M8|]. apply Forall_cons_2; [|constructor]. rewrite lookup_singleton_ne; [done|apart Hd 8 7]. }
    eexists. split.
    - eexists. split; [exact M9|]. apply lookup_singleton.
    - split; [reflexivity|cbn [cd_expires_at test_credential]; unfold second; lia]. }
  split; [unfold int64; vm_compute; split; discriminate|]. vm_compute. reflexivity.
Qed.

(** ** The repository's own test *)
Lemma c64_own_test : forall t now evs, well_made t ->
  Forall (in_time (test_server t now) now (now + 600 * second)) evs ->
  fresh_randomness (test_spec t true true true true true "/oauth2/introspect" "/oauth2/revoke") (test_server t now) evs ->
  146 <= length evs ->
  passed (run_suite (mounted test_resource test_required) evs (test_server t now)
    (run_spec (test_spec t true true true true true "/oauth2/introspect" "/oauth2/revoke"))).
Proof.
  intros t now evs Ht He Hf Hn.
  refine (proj2 (c64_passes _ _ _ _ _ _ _ (test_server_described t now true true true true true _ _ (now + 600 * second) Ht _ _ _ _) He Hf) Hn);
    [by right|by right|unfold second; lia|].
  destruct evs as [|ev evs]; [cbn in Hn; lia|]. inversion He as [|? ? Hev _]; subst.
  destruct Hev as (_ & _ & _ & _ & _ & _ & _ & H1 & H2 & _).
  change (cfg_access_lifespan (sv_config (test_server t now))) with (3600 * second)%Z in H2.
  unfold int64, second in *. pose proof (Z.div_le_mono now (now + 3600 * 1000000000) 1000000000 ltac:(lia) ltac:(lia)).
  pose proof (Z.div_le_mono (now + 3600 * 1000000000) (now + 600 * 1000000000 + 3600 * 1000000000) 1000000000 ltac:(lia) ltac:(lia)). lia.
Qed.

(** ** A concrete run *)
Fixpoint distinct (l : list string) : bool :=
  match l with [] => true | x :: l => negb (existsb (seqb x) l) && distinct l end.
Lemma distinct_nodup l : distinct l = true -> NoDup l.
Proof.
  induction l as [|x l IH]; intros H; [constructor|]. cbn [distinct] in H. apply andb_true_iff in H as [H1 H2].
  constructor; [|by apply IH]. intros Hin. apply negb_true_iff in H1.
  enough (existsb (seqb x) l = true) by congruence. apply existsb_exists. exists x.
  split; [by apply elem_of_list_In|apply seqb_same].
Qed.
Lemma case_distinct :
  NoDup (map signature_string (test_token_list case_tokens) ++ flat_map (draws case_server) case_envs).
Proof. apply distinct_nodup. vm_compute. reflexivity. Qed.
Lemma case_well_made : well_made case_tokens.
Proof.
  split; [|exact (proj1 (proj1 (NoDup_app _ _) case_distinct))].
  unfold test_token_list. cbn [case_tokens tt_unknown tt_valid tt_expired tt_insufficient tt_unknown_refresh
    tt_valid_refresh tt_expired_refresh tt_unknown_code tt_expired_code].
  repeat apply Forall_cons_2; [..|constructor].
  all: match goal with |- exists _ _, _ = Some (case_made ?i, _) => exists (case_key 0 i), "" end; reflexivity.
Qed.
Lemma case_in_time : Forall (in_time case_server 0 (600 * second)) case_envs.
Proof. repeat constructor; vm_compute; try discriminate; try reflexivity. Qed.
Lemma apart_fresh t now pw cc im co re intro revoke evs : well_made t ->
  NoDup (map signature_string (test_token_list t) ++ flat_map (draws (test_server t now)) evs) ->
  Forall (fun ev => enough_random ev (test_server t now) 2) evs ->
  fresh_randomness (test_spec t pw cc im co re intro revoke) (test_server t now) evs.
Proof.
  intros [Hm _] Hd Hen. destruct (proj1 (NoDup_app _ _) Hd) as (_ & Hsep & Hnd).
  split; [exact Hen|]. split; [exact Hnd|]. intros sg Hsg.
  assert (Hne : forall k, In k (test_token_list t) -> signature_string k <> sg).
  { intros k Hk <-. apply (Hsep (signature_string k)); [|by apply elem_of_list_In].
    apply elem_of_list_In, in_map, Hk. }
  clear Hsg Hsep Hnd. unfold test_token_list in Hm, Hne. rewrite !Forall_cons in Hm.
  destruct Hm as (M1 & _ & _ & _ & M5 & _ & _ & M8 & _).
  apply made_names in M1, M5, M8. unfold server_secret.
  cbn [test_server sv_access sv_refresh sv_codes sv_config test_config default_server_config cfg_secret].
  split; [rewrite !lookup_insert_ne, lookup_singleton_ne; [done|..]; apply Hne; cbn [In]; tauto|].
  split; [rewrite !lookup_insert_ne, lookup_singleton_ne; [done|..]; apply Hne; cbn [In]; tauto|].
  split; [rewrite lookup_singleton_ne; [done|..]; apply Hne; cbn [In]; tauto|].
  intros str Hstr Hn. cbn [test_spec sp_unknown_token sp_unknown_refresh sp_unknown_code In] in Hstr.
  destruct Hstr as [<-|[<-|[<-|[]]]].
  - refine (Hne _ _ (names_fun _ _ _ _ M1 Hn)); cbn [In]; tauto.
  - refine (Hne _ _ (names_fun _ _ _ _ M5 Hn)); cbn [In]; tauto.
  - refine (Hne _ _ (names_fun _ _ _ _ M8 Hn)); cbn [In]; tauto.
Qed.
Lemma case_enough : Forall (fun ev => enough_random ev case_server 2) case_envs.
Proof. repeat constructor; vm_compute; discriminate. Qed.
Lemma case_fresh : fresh_randomness case_spec case_server case_envs.
Proof. exact (apart_fresh case_tokens 0 true false false false false "" "" case_envs case_well_made case_distinct case_enough). Qed.
Lemma case_described : described test_resource test_required case_spec case_server 0 (600 * second).
Proof.
  refine (test_server_described case_tokens 0 true false false false false _ _ _ case_well_made _ _ _ _);
    [by left|by left|unfold second; lia|unfold int64; vm_compute; split; discriminate].
Qed.
Lemma case_passed : passed (run_suite (mounted test_resource test_required) case_envs case_server (run_spec case_spec)).
Proof.
  refine (proj2 (c64_passes _ _ _ _ _ _ _ case_described case_in_time case_fresh) _).
  cbn. lia.
Qed.
Lemma case_all : described test_resource test_required case_spec case_server 0 (600 * second) /\
  Forall (in_time case_server 0 (600 * second)) case_envs /\
  fresh_randomness case_spec case_server case_envs /\
  (most_requests case_spec <= length case_envs)%nat /\ well_made case_tokens /\
  passed (run_suite (mounted test_resource test_required) case_envs case_server (run_spec case_spec)).
Proof.
  split; [exact case_described|]. split; [exact case_in_time|]. split; [exact case_fresh|].
  split; [cbn; lia|]. split; [exact case_well_made|exact case_passed].
Qed.
Lemma case_sound :
  passed (run_suite (mounted test_resource test_required) case_envs case_server (run_spec case_spec)) /\
  (forall ev s r, snd (careless ev s r) = Some new_rw) /\
  sp_revocation default_spec <> "".
Proof. split; [exact case_passed|]. split; [reflexivity|discriminate]. Qed.
