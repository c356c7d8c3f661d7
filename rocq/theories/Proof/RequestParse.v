(** Proofs about the parsing and building of requests. *)
From Verif.Model Require Import Server.
From Verif.Spec Require Import ScopeSpec WireSpec RequestSpec Cases.
From Verif.Proof Require Import StrFacts Base64Facts UrlFacts UrlParse JsonFacts ScopeFacts ScopeProofs WireFacts WireProofs Redirect ServerFacts Steps RequestProofs.

(** ** C20 *)
Lemma parse_form_post r1 r2 : same_but_url_query r1 r2 ->
  well_formed_query (rq_query r1) -> well_formed_query (rq_query r2) ->
  option_map f_post (parse_form r1) = option_map f_post (parse_form r2).
Proof.
  intros (H1 & _ & _ & H4 & H5 & H6) [v1 Hv1] [v2 Hv2]. unfold parse_form.
  assert (parse_post_form r1 = parse_post_form r2) as Hp.
  { unfold parse_post_form. by rewrite H4, H5. }
  rewrite H1, H5, H6, Hp, Hv1, Hv2.
  set (x := match rq_preset r2 with Some v => (v, true) | None => _ end). destruct x as [post ok].
  destruct ok; done.
Qed.

Lemma token_request_by_post r1 r2 :
  rq_method r1 = rq_method r2 -> rq_auth r1 = rq_auth r2 ->
  option_map f_post (parse_form r1) = option_map f_post (parse_form r2) ->
  parse_token_request r1 = parse_token_request r2.
Proof.
  intros Hm Ha Hf. unfold parse_token_request, basic_auth. rewrite Hm, Ha.
  destruct (parse_form r1) as [f1|], (parse_form r2) as [f2|]; try discriminate Hf; [|done].
  injection Hf as Hf. by rewrite Hf.
Qed.
Lemma lookup_request_by_post r1 r2 :
  rq_method r1 = rq_method r2 -> rq_auth r1 = rq_auth r2 ->
  option_map f_post (parse_form r1) = option_map f_post (parse_form r2) ->
  parse_lookup_request r1 = parse_lookup_request r2.
Proof.
  intros Hm Ha Hf. unfold parse_lookup_request, basic_auth. rewrite Hm, Ha.
  destruct (parse_form r1) as [f1|], (parse_form r2) as [f2|]; try discriminate Hf; [|done].
  injection Hf as Hf. by rewrite Hf.
Qed.

Lemma c20_parsers : forall r1 r2, same_but_url_query r1 r2 ->
  well_formed_query (rq_query r1) -> well_formed_query (rq_query r2) ->
  parse_token_request r1 = parse_token_request r2 /\
  parse_introspection_request r1 = parse_introspection_request r2 /\
  parse_revocation_request r1 = parse_revocation_request r2.
Proof.
  intros r1 r2 Hs H1 H2. pose proof (parse_form_post r1 r2 Hs H1 H2) as Hf. destruct Hs as (Hm & _ & Ha & _).
  split; [by apply token_request_by_post|]. split; by apply lookup_request_by_post.
Qed.
Lemma c20_endpoints : forall ev s r1 r2 w, same_but_url_query r1 r2 ->
  well_formed_query (rq_query r1) -> well_formed_query (rq_query r2) ->
  last_segment (rq_path r1) <> "authorize" ->
  serve_http ev s r1 w = serve_http ev s r2 w.
Proof.
  intros ev s r1 r2 w Hs H1 H2 Hseg. destruct (c20_parsers r1 r2 Hs H1 H2) as (Ht & Hl & _).
  unfold parse_introspection_request in Hl. destruct Hs as (_ & Hp & _).
  unfold serve_http, handle, token_endpoint, introspection_endpoint, revocation_endpoint, lookup_prologue.
  rewrite <- Hp, Ht, Hl, (proj2 (seqb_false _ _) Hseg). done.
Qed.

(** ** C21 *)
Lemma c21_get : forall ev s r, rq_method r = "GET" -> last_segment (rq_path r) = "authorize" ->
  exists w, serve_http ev s r new_rw = (s, Some w) /\ header_values w "Location" = [] /\
    ((status w = 200%Z /\ fixed_body (rw_body w)) \/ exists code name, error_document w code name).
Proof.
  intros ev s r Hm Hseg. unfold serve_http, handle. rewrite Hseg. change (seqb "authorize" "authorize") with true. cbv iota zeta.
  assert (Hok : forall e, plain_error e -> exists w,
     (s, write_outcome new_rw (OError e)) = (s, Some w) /\ header_values w "Location" = [] /\
     ((status w = 200%Z /\ fixed_body (rw_body w)) \/ exists code name, error_document w code name)).
  { intros e He. destruct (write_plain e He) as (w & -> & _ & Hd & _). exists w. split; [done|].
    split; [by destruct Hd as (_ & ? & _)|]. right. eauto. }
  unfold authorization_endpoint. destruct (parse_authorization_request r) as [req|e] eqn:Ep.
  2:{ apply Hok. by eapply parse_authorization_inr. }
  destruct (known_response_type (aq_response_type req)); cbn [negb]; [|apply Hok; auto].
  destruct (sv_clients s !! aq_client_id req) as [c|]; [|apply Hok; auto].
  destruct (seqb (en_redirect_uri c) (aq_redirect_uri req)); cbn [negb]; [|apply Hok; auto].
  rewrite Hm. change (seqb "GET" "GET") with true. cbv iota.
  eexists. split; [vm_compute; reflexivity|]. split; [done|]. left. split; [done|]. by right; left.
Qed.

Lemma owner_ok_spec s u p : owner_ok s u p = true <-> exists e, sv_users s !! u = Some e /\ en_secret e = p.
Proof.
  unfold owner_ok. destruct (sv_users s !! u) as [e|].
  - rewrite seqb_true. split; [eauto|]. by intros (? & [= <-] & ?).
  - split; [done|]. by intros (? & ? & _).
Qed.

Lemma post_form_param r k : vget (post_form r) k = body_param r k.
Proof. unfold post_form, body_param. by destruct (parse_form r). Qed.

Lemma c21_credentials : forall ev s r s' o, handle ev s r = Done s' o ->
  last_segment (rq_path r) = "authorize" ->
  s' <> s \/ (exists t, o = OToken t) \/ (exists c, o = OCode c) ->
  rq_method r = "POST" /\
  exists u, sv_users s !! body_param r "username" = Some u /\ en_secret u = body_param r "password".
Proof.
  intros ev s r s' o H Hseg Ho. pose proof (handle_handled ev s r) as Hh. rewrite H in Hh.
  inversion Hh; subst; try (by destruct Ho as [?|[[? ?]|[? ?]]]);
  try match goal with
  | A : owner_ok _ (r_user r) _ = true |- _ =>
      apply owner_ok_spec in A; unfold r_user, r_password in A; rewrite !post_form_param in A; done
  | A : at_token _ _ _ _ |- _ => destruct A as (A & _); congruence
  | A : at_lookup _ _ _ _ _ |- _ => destruct A as (A & _); congruence
  end.
Qed.

(** The body parameters do not depend on the query. *)
Lemma c21_body : forall r1 r2 k, same_but_url_query r1 r2 ->
  well_formed_query (rq_query r1) -> well_formed_query (rq_query r2) ->
  body_param r1 k = body_param r2 k.
Proof.
  intros r1 r2 k Hs H1 H2. pose proof (parse_form_post r1 r2 Hs H1 H2) as Hf. unfold body_param.
  destruct (parse_form r1) as [f1|], (parse_form r2) as [f2|]; try discriminate Hf; [|done].
  injection Hf as Hf. by rewrite Hf.
Qed.
(** ... and are those of the body. *)
Lemma c21_body_value : forall r k b, rq_method r = "POST" -> rq_preset r = None ->
  rq_body r = Some (b, true) -> fits_form_limit r ->
  rq_ctype r = "application/x-www-form-urlencoded" ->
  well_formed_query b -> well_formed_query (rq_query r) ->
  body_param r k = vget (fst (parse_query b)) k.
Proof.
  intros r k b Hm Hp Hb Hl Hc [v Hv] [q Hq]. unfold body_param, parse_form. rewrite Hp, Hm, Hb.
  change (has_form_body "POST") with true. cbv iota. unfold parse_post_form. rewrite Hb, Hc.
  change (seqb "application/x-www-form-urlencoded" "") with false. cbv iota.
  change (parse_media_type "application/x-www-form-urlencoded") with ("application/x-www-form-urlencoded", true).
  cbv iota beta. change (seqb "application/x-www-form-urlencoded" form_ctype) with true. cbv iota.
  unfold fits_form_limit in Hl. rewrite Hb in Hl. cbv beta iota in Hl.
  assert ((max_form_size <? Z.of_nat (slen b))%Z = false) as ->. { unfold max_form_size, slen in *. lia. }
  cbn [negb orb]. rewrite Hv, Hq. done.
Qed.
Lemma c21_irrelevant_query : forall ev s r1 r2 w, same_but_url_query r1 r2 ->
  well_formed_query (rq_query r1) -> well_formed_query (rq_query r2) ->
  (forall k, In k ["response_type"; "scope"; "client_id"; "redirect_uri"; "state"] -> form_param r1 k = form_param r2 k) ->
  serve_http ev s r1 w = serve_http ev s r2 w.
Proof.
  intros ev s r1 r2 w Hs H1 H2 Hk.
  destruct (decide (last_segment (rq_path r1) = "authorize")) as [Hseg|Hseg]; [|by apply c20_endpoints].
  pose proof (parse_form_post r1 r2 Hs H1 H2) as Hf. destruct Hs as (Hm & Hp & _).
  assert (Ha : parse_authorization_request r1 = parse_authorization_request r2).
  { unfold parse_authorization_request. rewrite Hm. unfold form_param in Hk.
    destruct (parse_form r1) as [f1|], (parse_form r2) as [f2|]; try discriminate Hf; [|done].
    rewrite !Hk by (cbn; tauto). done. }
  assert (Hq : post_form r1 = post_form r2).
  { unfold post_form. destruct (parse_form r1) as [f1|], (parse_form r2) as [f2|]; try discriminate Hf; [|done].
    by injection Hf. }
  unfold serve_http, handle, authorization_endpoint. rewrite <- Hp, Hseg.
  change (seqb "authorize" "authorize") with true. cbv iota zeta. rewrite Ha, Hq, Hm. done.
Qed.

(** ** C22, C23 *)
Lemma vget_vput_ne k v x m j : seqb k j = false -> vget (vput k v x m) j = vget m j.
Proof.
  intros H. apply seqb_false in H. unfold vput, vget, values in *. destruct (seqb v ""); [done|]. by rewrite lookup_insert_ne.
Qed.
Lemma vget_vput k v x m : vget (vput k v x m) k = if seqb v "" then vget m k else x.
Proof. unfold vput, vget, values in *. destruct (seqb v ""); [done|]. by rewrite lookup_insert. Qed.
Lemma vget_insert_ne k l m j : seqb k j = false -> vget (<[k := l]> (m : values)) j = vget m j.
Proof. intros H. apply seqb_false in H. unfold vget, values in *. by rewrite lookup_insert_ne. Qed.
Lemma vget_empty k : vget ∅ k = "".
Proof. unfold vget. by rewrite values_empty. Qed.

Lemma vget_if (b : bool) m1 m2 k : vget (if b then m1 else m2) k = if b then vget m1 k else vget m2 k.
Proof. by destruct b. Qed.
Ltac vgets := rewrite ?vget_vput_ne, ?vget_vput, ?vget_if, ?vget_insert_ne, ?vget_vput_ne, ?vget_vput, ?vget_empty by reflexivity.

Lemma if_empty v : (if seqb v "" then "" else v) = v.
Proof. destruct (seqb v "") eqn:E; [by apply seqb_true in E as ->|done]. Qed.
Lemma if_same (b : bool) {A} (x : A) : (if b then x else x) = x.
Proof. by destruct b. Qed.

Lemma token_values_get q :
  let m := token_request_values q in
  vget m "grant_type" = tq_grant_type q /\ vget m "username" = tq_username q /\ vget m "password" = tq_password q /\
  vget m "refresh_token" = tq_refresh_token q /\ vget m "code" = tq_code q /\
  vget m "redirect_uri" = (if seqb (tq_redirect_uri q) "" then "" else query_escape (tq_redirect_uri q)) /\
  vget m "scope" = (if Nat.eqb (length (items (tq_scope q))) 0 then "" else scope_string (tq_scope q)).
Proof.
  unfold token_request_values. cbv zeta. split_and!.
  all: repeat (rewrite vget_vput_ne by reflexivity); rewrite ?vget_vput;
       repeat (rewrite vget_vput_ne by reflexivity); rewrite ?vget_if;
       repeat (rewrite vget_insert_ne by reflexivity); repeat (rewrite vget_vput_ne by reflexivity); rewrite ?vget_vput, ?vget_empty, ?if_same, ?if_empty; try reflexivity.
  destruct (Nat.eqb _ 0); [done|]. unfold vget, values. by rewrite lookup_insert.
Qed.

Lemma form_ctype_media : parse_media_type form_ctype = (form_ctype, true).
Proof. vm_compute. reflexivity. Qed.

Lemma post_parse_form path q auth vals : well_formed_query q -> (Z.of_nat (slen (encode_values vals)) <= max_form_size)%Z ->
  exists f, parse_form {| rq_method := "POST"; rq_path := path; rq_query := q; rq_auth := auth; rq_ctype := form_ctype;
     rq_body := Some (encode_values vals, true); rq_preset := None |} = Some f /\ f_post f = drop_empty vals /\
     (q = "" -> f_form f = drop_empty vals).
Proof.
  intros [v Hv] Hl. unfold parse_form, parse_post_form. cbn [rq_method rq_query rq_ctype rq_body rq_preset].
  change (has_form_body "POST") with true. cbv iota. change (seqb form_ctype "") with false. cbv iota.
  rewrite form_ctype_media. change (seqb form_ctype form_ctype) with true. cbv iota.
  assert ((max_form_size <? Z.of_nat (slen (encode_values vals)))%Z = false) as -> by lia. cbn [negb orb].
  rewrite parse_encode, Hv. cbn [andb]. eexists. split; [reflexivity|]. split; [done|]. intros ->. injection Hv as <-.
  unfold merge_values. cbn [f_form]. unfold values in *. apply map_eq. intros k.
  rewrite lookup_union_with, lookup_empty. generalize (drop_empty vals). unfold values. intros m. by destruct (m !! k).
Qed.

Lemma basic_header_parse id secret : without ":" id ->
  parse_basic_auth (basic_auth_header id secret) = Some (id, secret) /\ seqb (basic_auth_header id secret) "" = false.
Proof.
  intros H. split; [|done]. unfold parse_basic_auth, basic_auth_header.
  change 6 with (slen "Basic "). rewrite take_str_app, drop_str_app.
  change (equal_fold "Basic " "Basic ") with true. cbv iota. rewrite std_roundtrip.
  change (id +:+ ":" +:+ secret) with (id +:+ String ":" secret). apply cut_app. by apply without_contains.
Qed.

Lemma c22_roundtrip : forall uri u q r,
  url_parse uri = Some u -> well_formed_query (u_rawquery u) ->
  tq_grant_type q <> "" -> tq_client_id q <> "" -> without ":" (tq_client_id q) ->
  Forall good_item (items (tq_scope q)) ->
  (tq_redirect_uri q = "" \/ is_Some (parse_request_uri (tq_redirect_uri q))) ->
  build_token_request uri q = Some r -> fits_form_limit r ->
  exists q', parse_token_request r = inl q' /\ same_token_request q q'.
Proof.
  intros uri u q r Hu Hq Hg Hc Hcol Hsc Hr Hb Hlim.
  unfold build_token_request, build_post in Hb. rewrite Hu in Hb. injection Hb as <-.
  unfold fits_form_limit in Hlim. cbn [rq_body] in Hlim.
  match goal with |- context [Build_request _ _ _ ?a _ _ _] => set (auth := a) end.
  destruct (post_parse_form (u_path u) (u_rawquery u) auth (token_request_values q) Hq) as (f & Hf & Hp & _).
  { exact Hlim. }
  unfold parse_token_request. rewrite Hf. cbn [rq_method]. change (negb (seqb "POST" "POST")) with false. cbv iota zeta.
  rewrite Hp, !vget_drop_empty. destruct (token_values_get q) as (-> & -> & -> & -> & -> & -> & ->).
  rewrite (proj2 (seqb_false _ _) Hg). unfold basic_auth. cbn [rq_auth].
  assert (auth = basic_auth_header (tq_client_id q) (tq_client_secret q)) as ->.
  { unfold auth. by rewrite (proj2 (seqb_false _ _) Hc). }
  destruct (basic_header_parse (tq_client_id q) (tq_client_secret q) Hcol) as [-> ->].
  rewrite (proj2 (seqb_false _ _) Hc).
  assert (query_unescape (if seqb (tq_redirect_uri q) "" then "" else query_escape (tq_redirect_uri q)) = Some (tq_redirect_uri q)) as ->.
  { destruct (seqb (tq_redirect_uri q) "") eqn:E; [apply seqb_true in E as ->; done|apply query_roundtrip]. }
  assert ((if seqb (tq_redirect_uri q) "" then true else
     match parse_request_uri (tq_redirect_uri q) with None => false | Some u0 => seqb (u_fragment u0) "" end) = true) as ->.
  { destruct Hr as [->|[u' Hu']]; [done|]. destruct (seqb (tq_redirect_uri q) ""); [done|]. rewrite Hu'.
    by destruct (parse_request_fragment _ _ Hu') as [-> _]. }
  cbn [negb]. eexists. split; [reflexivity|]. unfold same_token_request. cbn.
  split_and!; try done. destruct (length (items (tq_scope q)) =? 0)%nat eqn:E.
  - apply Nat.eqb_eq, length_zero_iff_nil in E. rewrite E. reflexivity.
  - by apply c08_proof.
Qed.

Lemma lookup_values_get q :
  let m := lookup_request_values q in
  vget m "token" = lq_token q /\ vget m "token_type_hint" = lq_token_type_hint q.
Proof.
  unfold lookup_request_values. cbv zeta. split.
  - rewrite vget_vput_ne by reflexivity. rewrite vget_vput, vget_empty, if_empty. done.
  - rewrite vget_vput, vget_vput_ne by reflexivity. rewrite vget_empty, if_empty. done.
Qed.

Lemma c23_roundtrip : forall uri u q r,
  url_parse uri = Some u -> well_formed_query (u_rawquery u) ->
  lq_token q <> "" -> without ":" (lq_client_id q) -> (lq_client_id q <> "" \/ lq_client_secret q <> "") ->
  build_introspection_request uri q = Some r -> fits_form_limit r ->
  parse_introspection_request r = inl q.
Proof.
  intros uri u q r Hu Hq Ht Hcol Hc Hb Hlim.
  unfold build_introspection_request, build_lookup_request, build_post in Hb. rewrite Hu in Hb. injection Hb as <-.
  unfold fits_form_limit in Hlim. cbn [rq_body] in Hlim.
  match goal with |- context [Build_request _ _ _ ?a _ _ _] => set (auth := a) end.
  destruct (post_parse_form (u_path u) (u_rawquery u) auth (lookup_request_values q) Hq) as (f & Hf & Hp & _).
  { exact Hlim. }
  unfold parse_introspection_request, parse_lookup_request. rewrite Hf. cbn [rq_method].
  change (negb (seqb "POST" "POST")) with false. cbv iota zeta.
  rewrite Hp, !vget_drop_empty. destruct (lookup_values_get q) as (-> & ->).
  rewrite (proj2 (seqb_false _ _) Ht). unfold basic_auth. cbn [rq_auth].
  assert (auth = basic_auth_header (lq_client_id q) (lq_client_secret q)) as ->.
  { unfold auth. destruct Hc as [Hc|Hc]; rewrite (proj2 (seqb_false _ _) Hc); [done|]. by rewrite orb_true_r. }
  destruct (basic_header_parse (lq_client_id q) (lq_client_secret q) Hcol) as [-> ->].
  by destruct q.
Qed.
Lemma c23_revocation : forall uri u q r,
  url_parse uri = Some u -> well_formed_query (u_rawquery u) ->
  lq_token q <> "" -> without ":" (lq_client_id q) -> (lq_client_id q <> "" \/ lq_client_secret q <> "") ->
  build_revocation_request uri q = Some r -> fits_form_limit r ->
  parse_revocation_request r = inl q.
Proof. exact c23_roundtrip. Qed.

(** ** C24 *)
Lemma form_param_post path auth m k :
  fits_form_limit (form_post path auth m) ->
  form_param (form_post path auth m) k = default "" (m !! k) /\ body_param (form_post path auth m) k = default "" (m !! k).
Proof.
  intros Hl. unfold form_param, body_param, form_post, encoded_form, fits_form_limit in *. cbn [rq_body] in Hl.
  destruct (post_parse_form path "" auth ((fun x => [x]) <$> m)) as (f & Hf & Hp & Hq).
  { by eexists. } { exact Hl. }
  unfold form_ctype in Hf. rewrite Hf, Hp, Hq by done. rewrite vget_drop_empty. unfold vget, values. rewrite lookup_fmap.
  by destruct (m !! k).
Qed.

Lemma unescape_identity s : contains "%" s = false -> contains "+" s = false -> query_unescape s = Some s.
Proof.
  unfold query_unescape. induction s as [|c s IH]; [done|]. cbn [contains]. rewrite !orb_false_iff. intros [H1 H2] [H3 H4].
  cbn [unescape]. rewrite H1, H3. cbn [mode_eqb orb andb]. by rewrite IH.
Qed.

Lemma c24_authorization : forall path auth m u,
  fits_form_limit (form_post path auth m) ->
  m !! "redirect_uri" = Some u -> is_Some (parse_request_uri u) -> without "%" u -> without "+" u ->
  default "" (m !! "response_type") <> "" -> default "" (m !! "client_id") <> "" ->
  exists req, parse_authorization_request (form_post path auth m) = inl req /\ aq_redirect_uri req = u.
Proof.
  intros path auth m u Hl Hu [v Hv] Hp Hplus Ht Hc. pose proof (form_param_post path auth m) as Hk.
  unfold parse_authorization_request. unfold form_param in Hk.
  destruct (parse_form (form_post path auth m)) as [f|] eqn:Ef.
  2:{ exfalso. destruct (Hk "response_type" Hl) as [Hk' _]. congruence. }
  change (negb (seqb (rq_method (form_post path auth m)) "GET") && negb (seqb (rq_method (form_post path auth m)) "POST")) with false.
  cbv iota zeta. rewrite !(proj1 (Hk _ Hl)), Hu. cbn [default Datatypes.id].
  rewrite (proj2 (seqb_false _ _) Ht), (proj2 (seqb_false _ _) Hc).
  assert (u <> "") as Hne by (by intros ->).
  rewrite unescape_identity by (by apply without_contains). rewrite (proj2 (seqb_false _ _) Hne), Hv.
  destruct (parse_request_fragment _ _ Hv) as [-> _]. change (negb (seqb "" "")) with false. cbv iota.
  eexists. split; [reflexivity|]. done.
Qed.
Lemma c24_token : forall path id secret m u, id <> "" -> without ":" id ->
  fits_form_limit (form_post path (basic_auth_header id secret) m) ->
  m !! "redirect_uri" = Some u -> is_Some (parse_request_uri u) -> without "%" u -> without "+" u ->
  default "" (m !! "grant_type") <> "" ->
  exists req, parse_token_request (form_post path (basic_auth_header id secret) m) = inl req /\ tq_redirect_uri req = u.
Proof.
  intros path id secret m u Hid Hcol Hl Hu [v Hv] Hp Hplus Ht. pose proof (form_param_post path (basic_auth_header id secret) m) as Hk.
  unfold parse_token_request. unfold body_param in Hk.
  destruct (parse_form (form_post path (basic_auth_header id secret) m)) as [f|] eqn:Ef.
  2:{ exfalso. destruct (Hk "grant_type" Hl) as [_ Hk']. congruence. }
  change (negb (seqb (rq_method (form_post path (basic_auth_header id secret) m)) "POST")) with false.
  cbv iota zeta. rewrite !(proj2 (Hk _ Hl)), Hu. cbn [default Datatypes.id].
  rewrite (proj2 (seqb_false _ _) Ht). unfold basic_auth. change (rq_auth (form_post path (basic_auth_header id secret) m)) with (basic_auth_header id secret).
  destruct (basic_header_parse id secret Hcol) as [-> ->]. rewrite (proj2 (seqb_false _ _) Hid).
  assert (u <> "") as Hne by (by intros ->).
  rewrite unescape_identity by (by apply without_contains). rewrite (proj2 (seqb_false _ _) Hne), Hv.
  destruct (parse_request_fragment _ _ Hv) as [-> _]. change (negb (seqb "" "")) with false. cbv iota.
  eexists. split; [reflexivity|]. done.
Qed.

(** What arrives in general. *)
Lemma c24_exact : forall r,
  (forall req, parse_authorization_request r = inl req ->
     query_unescape (form_param r "redirect_uri") = Some (aq_redirect_uri req)) /\
  (forall req, parse_token_request r = inl req ->
     query_unescape (body_param r "redirect_uri") = Some (tq_redirect_uri req)).
Proof.
  intros r. split; intros req H.
  - apply parse_authorization_inl in H as (_ & (f & Hf & _ & _ & _ & _ & _ & H4 & _) & _).
    unfold form_param. by rewrite Hf.
  - unfold parse_token_request in H. unfold body_param. cbv zeta in H.
    destruct (negb (seqb (rq_method r) "POST")); [done|]. destruct (parse_form r) as [f|]; [|done].
    destruct (seqb (vget (f_post f) "grant_type") ""); [done|].
    destruct (match basic_auth r with Some c => c | None => _ end) as [id sec].
    destruct (seqb id ""); [done|]. destruct (query_unescape (vget (f_post f) "redirect_uri")) as [x|]; [|done].
    destruct (negb _); [done|]. by injection H as <-.
Qed.

(** ** C25 *)
Lemma unescape_hash m s : m = EncHost \/ m = EncZone -> contains "#" s = true -> unescape m s = None.
Proof.
  intros Hm. assert (H : forall n s, slen s <= n -> contains "#" s = true -> unescape m s = None).
  { clear s. induction n as [|n IH]; intros s Hn Hc; [destruct s; [done|cbn in Hn; lia]|].
    destruct s as [|c s]; [done|]. cbn [contains] in Hc. cbn [unescape].
    destruct (Ascii.eqb_spec c "%") as [->|Hpct].
    - cbn [orb] in Hc. change (Ascii.eqb "%" "#") with false in Hc. cbn [orb] in Hc.
      destruct s as [|h1 [|h2 s]]; [done..|]. destruct (unhex h1) as [x|] eqn:E1; [|done]. destruct (unhex h2) as [y|] eqn:E2; [|done].
      cbv zeta. destruct (mode_eqb m EncHost && _ && _); [done|]. destruct (mode_eqb m EncZone && _ && _ && _); [done|].
      rewrite IH; [done|cbn in Hn; lia|]. cbn [contains] in Hc. apply orb_true_iff in Hc as [Hc|Hc].
      { apply Ascii.eqb_eq in Hc as ->. discriminate E1. } apply orb_true_iff in Hc as [Hc|Hc]; [|done].
      apply Ascii.eqb_eq in Hc as ->. discriminate E2.
    - destruct (Ascii.eqb_spec c "+") as [->|Hplus].
      { change (Ascii.eqb "+" "#") with false in Hc. cbn [orb] in Hc. rewrite IH; [done|cbn in Hn; lia|done]. }
      apply orb_true_iff in Hc as [Hc|Hc].
      + apply Ascii.eqb_eq in Hc as ->. destruct Hm as [-> | ->]; reflexivity.
      + rewrite IH; [|cbn in Hn; lia|done]. by destruct (_ && _ && _). }
  intros. by eapply H.
Qed.

Lemma parse_host_hash h : contains "#" h = true -> parse_host h = None.
Proof.
  intros H. unfold parse_host. destruct (strip_prefix "[" h).
  - destruct (last_cut "]" h) as [[b cp]|] eqn:E; [|done]. destruct (valid_optional_port cp) eqn:Ev; cbn [negb]; [|done].
    destruct (cut_pct25 b) as [[h1 h2]|] eqn:Ec; [|apply unescape_hash; auto].
    assert (Hb : b = h1 +:+ h2).
    { clear -Ec. revert h1 h2 Ec. induction b as [|a b IH]; intros h1 h2 Ec; cbn [cut_pct25] in Ec.
      - destruct (strip_prefix "%25" ""); [|done]. by injection Ec as <- <-.
      - destruct (strip_prefix "%25" (String a b)); [by injection Ec as <- <-|].
        destruct (cut_pct25 b) as [[x y]|]; [|done]. injection Ec as <- <-. rewrite app_cons_s. f_equal. by apply IH. }
    apply last_cut_some in E as [-> Hcp]. rewrite Hb, !contains_app in H.
    rewrite !orb_true_iff in H. destruct H as [[H|H]|H].
    + by rewrite (unescape_hash EncHost h1) by auto.
    + rewrite (unescape_hash EncZone h2) by auto. by destruct (unescape EncHost h1).
    + rewrite (unescape_hash EncHost (String "]" cp)) by auto. by destruct (unescape EncHost h1), (unescape EncZone h2).
  - destruct (last_cut ":" h) as [[x port]|]; [|apply unescape_hash; auto].
    destruct (negb _); [done|]. apply unescape_hash; auto.
Qed.
Lemma parse_authority_hash a : contains "#" a = true -> parse_authority a = None.
Proof.
  intros H. unfold parse_authority. destruct (last_cut "@" a) as [[ui h]|] eqn:E.
  - apply last_cut_some in E as [-> _]. rewrite contains_app in H. apply orb_true_iff in H as [H|H].
    + destruct (parse_host h); [|done]. assert (valid_userinfo ui = false) as ->; [|done].
      unfold valid_userinfo. destruct (all_bytes _ ui) eqn:E; [|done]. exfalso.
      eapply all_bytes_not_contains in E; [|instantiate (1 := "#"%char); vm_compute; reflexivity]. congruence.
    + change (contains "#" (String "@" h)) with (contains "#" h) in H. by rewrite parse_host_hash.
  - by rewrite parse_host_hash.
Qed.

Lemma scheme_name_ok s : scheme_name s -> scheme_ok s.
Proof.
  intros (a & r & -> & Ha & Hr). exists a, r. split; [done|]. split.
  - unfold letter in Ha. cbv zeta in Ha. change (N_of_ascii a) with (ord a) in Ha. unfold is_alpha, is_lower, is_upper.
    rewrite !orb_true_iff, !andb_true_iff, !N.leb_le. tauto.
  - apply all_bytes_spec. intros b Hb. apply s_in_list, Hr in Hb. unfold letter in Hb. cbv zeta in Hb.
    change (N_of_ascii b) with (ord b) in Hb. unfold scheme_char, is_alnum, is_alpha, is_lower, is_upper, is_digit.
    rewrite !orb_true_iff, !andb_true_iff, !N.leb_le. destruct Hb as [Hb|[Hb|Hb]]; [tauto|tauto|].
    right. destruct Hb as [<-|[<-|[<-|[]]]]; reflexivity.
Qed.

Lemma cut_skip c s t : contains c s = false ->
  cut c (s +:+ t) = match cut c t with Some (x, y) => Some (s +:+ x, y) | None => None end.
Proof.
  intros Hs. induction s as [|a s IH]; [change ("" +:+ t) with t; by destruct (cut c t) as [[]|]|]. cbn [contains] in Hs. apply orb_false_iff in Hs as [H1 H2].
  rewrite app_cons_s. cbn [cut]. rewrite H1, IH by done. destruct (cut c t) as [[]|]; [|done]. by rewrite app_cons_s.
Qed.

Lemma parse_url_hash scheme authority tail fq rq :
  contains "#" authority = true -> contains "/" authority = false ->
  (tail = "" \/ exists x, tail = String "/" x) -> seqb scheme "" = false ->
  (let rooted := match strip_prefix "/" ("//" +:+ authority +:+ tail) with Some _ => true | None => false end in
   let rest := "//" +:+ authority +:+ tail in
        if negb rooted && negb (seqb scheme "") then
          Some (mk_url scheme rest None "" "" "" fq rq)
        else if negb rooted && true then None
        else if negb rooted && first_segment_colon rest then None
        else
          let triple := match strip_prefix "///" rest with Some _ => true | None => false end in
          let with_path user host rest' :=
            match set_escaped EncPath rest' with
            | Some (path, rawpath) => Some (mk_url scheme "" user host path rawpath fq rq)
            | None => None
            end in
          match strip_prefix "//" rest with
          | Some after =>
              if negb (seqb scheme "") || (negb true && negb triple) then
                let '(authority, rest') :=
                  match cut "/" after with
                  | Some (a, b) => (a, String "/" b)
                  | None => (after, "")
                  end in
                match parse_authority authority with
                | Some (user, host) => with_path user host rest'
                | None => None
                end
              else with_path None "" rest
          | None => with_path None "" rest
          end) = None.
Proof.
  intros Hh Hs Ht Hsch. change (strip_prefix "/" ("//" +:+ authority +:+ tail)) with (Some ("/" +:+ authority +:+ tail)).
  cbv beta iota zeta. rewrite strip_prefix_app, Hsch. cbn [negb andb orb]. rewrite cut_skip by done.
  destruct Ht as [->|[x ->]].
  - cbn [cut]. rewrite app_nil_r_s. by rewrite parse_authority_hash.
  - cbn [cut]. change (Ascii.eqb "/" "/") with true. cbv iota. rewrite app_nil_r_s. by rewrite parse_authority_hash.
Qed.

Lemma c25_partial : forall scheme authority rest,
  scheme_name scheme -> In "#"%char (list_ascii_of_string authority) ->
  without "/" authority -> without "?" authority ->
  (rest = "" \/ exists x, rest = String "/" x \/ rest = String "?" x) ->
  parse_request_uri (scheme +:+ "://" +:+ authority +:+ rest) = None.
Proof.
  intros scheme authority rest Hs Hh Hsl Hq Hr. apply scheme_name_ok in Hs.
  apply without_contains in Hsl, Hq. apply s_in_list, contains_true in Hh.
  unfold parse_request_uri, parse_url. destruct (negb (all_bytes _ _)); [done|].
  assert (Hne : forall t, seqb (scheme +:+ ":" +:+ t) "" = false /\ seqb (scheme +:+ ":" +:+ t) "*" = false).
  { intros t. destruct Hs as (a & r & -> & Ha & _). rewrite app_cons_s. split; [done|]. apply seqb_false. intros H. injection H as -> H. discriminate Ha. }
  change (scheme +:+ "://" +:+ authority +:+ rest) with (scheme +:+ ":" +:+ ("//" +:+ authority +:+ rest)).
  destruct (Hne ("//" +:+ authority +:+ rest)) as [-> ->]. cbn [andb]. rewrite getscheme_app by done. cbv zeta.
  assert (Hlow : seqb (to_lower scheme) "" = false).
  { apply seqb_false. by apply scheme_chars, scheme_ok_lower. }
  pose proof (fun tail fq rq => parse_url_hash (to_lower scheme) authority tail fq rq Hh Hsl) as HP. cbv zeta in HP.
  change ("//" +:+ authority +:+ rest) with (("//" +:+ authority) +:+ rest). rewrite (cut_skip "?" ("//" +:+ authority)) by done.
  destruct Hr as [->|[x [-> | ->]]].
  - cbn [cut]. rewrite app_nil_r_s. specialize (HP "" false ""). rewrite app_nil_r_s in HP. by apply HP; [left|].
  - destruct (cut "?" (String "/" x)) as [[y q]|] eqn:E.
    + apply cut_some in E as [E _]. destruct y as [|a y]; [discriminate E|]. injection E as <- E.
      destruct q as [|b q]; rewrite app_assoc_s; apply HP; eauto.
    + rewrite app_assoc_s. apply HP; eauto.
  - cbn [cut]. change (Ascii.eqb "?" "?") with true. cbv iota. rewrite app_nil_r_s.
    destruct x as [|b x]; [specialize (HP "" true "")|specialize (HP "" false (String b x))]; rewrite app_nil_r_s in HP; apply HP; auto.
Qed.

Lemma c25_refused : forall r scheme authority rest,
  scheme_name scheme -> In "#"%char (list_ascii_of_string authority) ->
  without "/" authority -> without "?" authority ->
  (rest = "" \/ exists x, rest = String "/" x \/ rest = String "?" x) ->
  (query_unescape (form_param r "redirect_uri") = Some (scheme +:+ "://" +:+ authority +:+ rest) ->
   exists e, parse_authorization_request r = inr e /\ e_name e = "invalid_request") /\
  (query_unescape (body_param r "redirect_uri") = Some (scheme +:+ "://" +:+ authority +:+ rest) ->
   exists e, parse_token_request r = inr e /\ e_name e = "invalid_request").
Proof.
  intros r scheme authority rest H1 H2 H3 H4 H5. pose proof (c25_partial _ _ _ H1 H2 H3 H4 H5) as HN.
  assert (Hne : seqb (scheme +:+ "://" +:+ authority +:+ rest) "" = false).
  { destruct H1 as (a & x & -> & _). by rewrite app_cons_s. }
  split; intros Hu.
  - unfold parse_authorization_request, form_param in *. destruct (_ && _); [eauto|].
    destruct (parse_form r) as [f|]; [|eauto]. cbv zeta. destruct (seqb (vget _ _) ""); [eauto|]. destruct (seqb (vget _ _) ""); [eauto|].
    rewrite Hu, Hne, HN. eauto.
  - unfold parse_token_request, body_param in *. destruct (negb _); [eauto|].
    destruct (parse_form r) as [f|]; [|eauto]. cbv zeta. destruct (seqb (vget _ _) ""); [eauto|].
    destruct (match basic_auth r with Some c => c | None => _ end) as [id sec]. destruct (seqb id ""); [eauto|].
    rewrite Hu, Hne, HN. cbn [negb]. eauto.
Qed.

Lemma scheme_ok_name s : scheme_ok s -> scheme_name s.
Proof.
  intros (a & r & -> & Ha & Hr). exists a, r. split; [done|]. split.
  - unfold letter. cbv zeta. change (N_of_ascii a) with (ord a). unfold is_alpha, is_lower, is_upper in Ha.
    rewrite !orb_true_iff, !andb_true_iff, !N.leb_le in Ha. tauto.
  - intros b Hb. rewrite all_bytes_spec in Hr. apply s_in_list, Hr in Hb. unfold letter. cbv zeta.
    change (N_of_ascii b) with (ord b). unfold scheme_char, is_alpha, is_lower, is_upper, is_digit in Hb.
    rewrite !orb_true_iff, !andb_true_iff, !N.leb_le in Hb. destruct Hb as [[Hb|Hb]|Hb]; [tauto|tauto|].
    right. right. unfold is_one_of in Hb. cbn [contains] in Hb. rewrite !orb_true_iff, !Ascii.eqb_eq in Hb. cbn [In]. destruct Hb as [->|[->|[->|Hb]]]; [auto..|discriminate Hb].
Qed.
(** Which texts [ParseRequestURI] accepts, without what it makes of them. *)
Definition is_some {A} (o : option A) : bool := match o with Some _ => true | None => false end.
Definition before_query (b : string) : string := match cut "?" b with Some (x, _) => x | None => b end.
Definition okrest (scheme rest : string) : bool :=
  match strip_prefix "/" rest with
  | None => negb (seqb scheme "")
  | Some _ =>
      match strip_prefix "//" rest with
      | Some after =>
          if negb (seqb scheme "") then
            match cut "/" after with
            | Some (a, b) => is_some (parse_authority a) && is_some (unescape EncPath (String "/" b))
            | None => is_some (parse_authority after)
            end
          else is_some (unescape EncPath rest)
      | None => is_some (unescape EncPath rest)
      end
  end.
Lemma set_escaped_some m p : is_some (set_escaped m p) = is_some (unescape m p).
Proof. unfold set_escaped. by destruct (unescape m p). Qed.
Lemma parse_accepts raw : is_some (parse_request_uri raw) =
  no_ctl raw && negb (seqb raw "") && (seqb raw "*" ||
    match getscheme raw with Some (a, b) => okrest (to_lower a) (before_query b) | None => false end).
Proof.
  unfold parse_request_uri, parse_url, no_ctl. destruct (all_bytes _ raw); [|done]. cbn [negb andb].
  destruct (seqb raw ""); [done|]. cbn [andb negb]. destruct (seqb raw "*"); [done|]. cbn [orb].
  destruct (getscheme raw) as [[a b]|]; [|done]. cbv zeta.
  assert (HH : exists fq rq, (match cut "?" b with Some (x, "") => (x, true, "") | Some (x, q) => (x, false, q) | None => (b, false, "") end)
    = (before_query b, fq, rq)).
  { unfold before_query. destruct (cut "?" b) as [[x [|c q]]|]; eauto. }
  destruct HH as (fq & rq & ->). generalize (before_query b). intros rest. unfold okrest.
  destruct (strip_prefix "/" rest); cbn [negb andb].
  - destruct (strip_prefix "//" rest) as [after|].
    + destruct (negb (seqb (to_lower a) "")) eqn:E; cbn [orb].
      * destruct (cut "/" after) as [[x y]|].
        -- destruct (parse_authority x) as [[user host]|]; [|done]. cbn [is_some andb]. rewrite <- set_escaped_some.
           by destruct (set_escaped EncPath (String "/" y)) as [[? ?]|].
        -- by destruct (parse_authority after) as [[user host]|].
      * cbn [negb andb]. rewrite <- set_escaped_some. by destruct (set_escaped EncPath rest) as [[? ?]|].
    + rewrite <- set_escaped_some. by destruct (set_escaped EncPath rest) as [[? ?]|].
  - by destruct (negb (seqb (to_lower a) "")).
Qed.
Lemma unescape_path_plain t : contains "%" t = false -> is_some (unescape EncPath t) = true.
Proof.
  induction t as [|c t IH]; [done|]. intros Ht. cbn [contains] in Ht. apply orb_false_iff in Ht as [H1 H2].
  cbn [unescape]. rewrite H1. specialize (IH H2).
  destruct (Ascii.eqb c "+"); [by destruct (unescape EncPath t)|]. cbn [mode_eqb orb andb]. by destruct (unescape EncPath t).
Qed.
Lemma unescape_path_hash p f : contains "%" f = false ->
  is_some (unescape EncPath (p +:+ String "#" f)) = is_some (unescape EncPath p).
Proof.
  intros Hf. rewrite unescape_split by done.
  pose proof (unescape_path_plain (String "#" f)) as HH. cbn [contains] in HH. rewrite Hf in HH. specialize (HH eq_refl).
  destruct (unescape EncPath (String "#" f)); [|done]. by destruct (unescape EncPath p).
Qed.
Lemma strip_slash rest x : strip_prefix "/" rest = Some x <-> rest = String "/" x.
Proof.
  destruct rest as [|c r]; [done|]. cbn [strip_prefix]. destruct (Ascii.eqb_spec "/" c) as [<-|Hn]; split; intros H; try congruence; done.
Qed.
Lemma strip_slashes rest x : strip_prefix "//" rest = Some x <-> rest = String "/" (String "/" x).
Proof.
  destruct rest as [|c r]; [done|]. cbn [strip_prefix]. destruct (Ascii.eqb_spec "/" c) as [<-|Hn]; [|split; intros H; try congruence; done].
  change (strip_prefix "/" r = Some x <-> String "/" r = String "/" (String "/" x)). rewrite strip_slash. split; [by intros ->|congruence].
Qed.
Lemma okrest_hash scheme rest f : okrest scheme rest = true -> contains "%" f = false ->
  okrest scheme (rest +:+ String "#" f) = negb (negb (seqb scheme "") &&
    match strip_prefix "//" rest with Some after => negb (contains "/" after) | None => false end).
Proof.
  unfold okrest. intros H Hf.
  destruct (strip_prefix "/" rest) as [x|] eqn:E1.
  - apply strip_slash in E1 as ->. rewrite app_cons_s. change (strip_prefix "/" (String "/" (x +:+ String "#" f))) with (Some (x +:+ String "#" f)).
    cbv iota. destruct (strip_prefix "//" (String "/" x)) as [y|] eqn:E2.
    + apply strip_slashes in E2. injection E2 as ->. rewrite app_cons_s.
      change (strip_prefix "//" (String "/" (String "/" (y +:+ String "#" f)))) with (Some (y +:+ String "#" f)). cbv iota.
      destruct (negb (seqb scheme "")); cbn [andb].
      * destruct (cut "/" y) as [[a b]|] eqn:Ec.
        -- apply cut_some in Ec as [-> Ha]. rewrite app_assoc_s, app_cons_s, cut_skip by done. cbn [cut]. change (Ascii.eqb "/" "/") with true. cbv iota.
           rewrite app_nil_r_s. apply andb_true_iff in H as [-> H]. cbn [andb].
           rewrite contains_app. cbn [contains]. change (Ascii.eqb "/" "/") with true. rewrite orb_true_r.
           change (String "/" (b +:+ String "#" f)) with (String "/" b +:+ String "#" f). by rewrite unescape_path_hash.
        -- apply cut_none in Ec. rewrite Ec. cbn [negb]. rewrite cut_skip by done.
           destruct (cut "/" (String "#" f)) as [[a b]|] eqn:Ec2.
           ++ apply cut_some in Ec2 as [Ec2 _]. destruct a as [|c a]; [discriminate Ec2|]. injection Ec2 as <- _.
              rewrite parse_authority_hash; [done|]. rewrite contains_app. cbn [contains]. by rewrite orb_true_r.
           ++ rewrite parse_authority_hash; [done|]. rewrite contains_app. cbn [contains]. by rewrite orb_true_r.
      * change (String "/" (String "/" (y +:+ String "#" f))) with (String "/" (String "/" y) +:+ String "#" f). by rewrite unescape_path_hash.
    + rewrite andb_false_r. cbn [negb]. destruct (strip_prefix "//" (String "/" (x +:+ String "#" f))) as [y|] eqn:E3.
      * exfalso. apply strip_slashes in E3. injection E3 as E3. destruct x as [|c x]; [discriminate E3|].
        rewrite app_cons_s in E3. injection E3 as -> _. done.
      * change (String "/" (x +:+ String "#" f)) with (String "/" x +:+ String "#" f). by rewrite unescape_path_hash.
  - assert (E2 : strip_prefix "//" rest = None).
    { destruct (strip_prefix "//" rest) as [y|] eqn:E2; [|done]. apply strip_slashes in E2 as ->. discriminate E1. }
    rewrite E2, andb_false_r. destruct (strip_prefix "/" (rest +:+ String "#" f)) as [y|] eqn:E3; [|done].
    apply strip_slash in E3. destruct rest as [|c r]; [discriminate E3|]. rewrite app_cons_s in E3. injection E3 as -> _. discriminate E1.
Qed.
Lemma before_query_hash b f :
  (contains "?" b = true /\ before_query (b +:+ String "#" f) = before_query b) \/
  (contains "?" b = false /\ before_query b = b /\ exists f1 f2, f = f1 +:+ f2 /\ before_query (b +:+ String "#" f) = b +:+ String "#" f1).
Proof.
  unfold before_query. destruct (cut "?" b) as [[x q]|] eqn:E.
  - left. apply cut_some in E as [-> Hx]. split; [rewrite contains_app; cbn [contains]; by rewrite orb_true_r|].
    rewrite app_assoc_s, app_cons_s, cut_skip by done. cbn [cut]. change (Ascii.eqb "?" "?") with true. cbv iota. by rewrite app_nil_r_s.
  - right. apply cut_none in E. split; [done|]. split; [done|]. rewrite cut_skip by done. cbn [cut]. change (Ascii.eqb "#" "?") with false. cbv iota.
    destruct (cut "?" f) as [[x q]|] eqn:Ef.
    + apply cut_some in Ef as [-> _]. by exists x, (String "?" q).
    + exists f, "". by rewrite app_nil_r_s.
Qed.
(** A "#" is appended to an accepted text. *)
Lemma parse_appended base f : is_some (parse_request_uri base) = true -> no_ctl f = true -> contains "%" f = false ->
  is_some (parse_request_uri (base +:+ String "#" f)) = true <->
  base <> "*" /\ ~ bare_origin base.
Proof.
  unfold bare_origin. rewrite !parse_accepts. intros H Hctl Hf. apply andb_true_iff in H as [H Hs]. apply andb_true_iff in H as [Hb Hne].
  assert (Hctl' : no_ctl (base +:+ String "#" f) = true).
  { rewrite no_ctl_app, Hb. cbn [no_ctl]. exact Hctl. }
  rewrite Hctl'. assert (Hne' : seqb (base +:+ String "#" f) "" = false).
  { apply seqb_false. by destruct base. }
  rewrite Hne'. assert (Hst : seqb (base +:+ String "#" f) "*" = false).
  { apply seqb_false. destruct base as [|c b]; [done|]. rewrite app_cons_s. intros E. injection E as _ E. by destruct b. }
  rewrite Hst. cbn [negb andb orb].
  destruct (seqb base "*") eqn:Est.
  { apply seqb_true in Est as ->. split; [|by intros [[] _]]. change (getscheme ("*" +:+ String "#" f)) with (Some ("", "*" +:+ String "#" f)). cbv iota.
    destruct (before_query_hash "*" f) as [[? _]|(_ & _ & f1 & f2 & _ & ->)]; [done|]. done. }
  apply seqb_false in Est. cbn [orb] in Hs. destruct (getscheme base) as [[a b]|] eqn:Eg; [|done].
  assert (Eg' : getscheme (base +:+ String "#" f) = Some (a, b +:+ String "#" f)).
  { destruct (getscheme_cases _ _ _ Eg) as [[-> ->]|[Ha ->]].
    - unfold okrest, before_query in Hs. destruct (cut "?" base) as [[x q]|] eqn:Ec.
      + apply cut_some in Ec as [-> _]. destruct (strip_prefix "/" x) as [y|] eqn:Ex; [|done]. apply strip_slash in Ex as ->. done.
      + destruct (strip_prefix "/" base) as [y|] eqn:Ex; [|done]. apply strip_slash in Ex as ->. done.
    - rewrite app_assoc_s. by apply getscheme_app. }
  rewrite Eg'.
  assert (Hkey : (exists scheme authority, scheme_name scheme /\ base = scheme +:+ "://" +:+ authority /\
    without "/" authority /\ without "?" authority) <->
    a <> "" /\ exists authority, b = "//" +:+ authority /\ contains "/" authority = false /\ contains "?" authority = false).
  { split.
    - intros (sch & au & Hsch & -> & H1 & H2). apply scheme_name_ok in Hsch. apply without_contains in H1, H2.
      change (sch +:+ "://" +:+ au) with (sch +:+ ":" +:+ ("//" +:+ au)) in Eg. rewrite getscheme_app in Eg by done. injection Eg as <- <-.
      split; [by destruct Hsch as (? & ? & -> & _)|]. by exists au.
    - intros [Ha (au & -> & H1 & H2)]. destruct (getscheme_cases _ _ _ Eg) as [[-> _]|[Hok ->]]; [done|].
      exists a, au. split; [by apply scheme_ok_name|]. split; [done|]. by rewrite !without_contains. }
  rewrite Hkey.
  assert (Hlow : seqb (to_lower a) "" = seqb a "").
  { destruct a; done. }
  destruct (before_query_hash b f) as [[Hq ->]|(Hq & Hbq & f1 & f2 & -> & ->)].
  - rewrite Hs. split; [|done]. intros _. split; [done|]. intros (_ & au & -> & _ & H2).
    rewrite contains_app in Hq. cbn [contains] in Hq. change (Ascii.eqb "/" "?") with false in Hq. cbn [orb] in Hq. congruence.
  - rewrite Hbq in Hs. rewrite contains_app in Hf. apply orb_false_iff in Hf as [Hf _].
    rewrite (okrest_hash _ _ _ Hs Hf), Hlow. split.
    + intros H. split; [done|]. intros (Ha & au & -> & H1 & H2). change (strip_prefix "//" ("//" +:+ au)) with (Some au) in H.
      cbv iota in H. rewrite H1 in H. by destruct a.
    + intros [_ H]. destruct (seqb a "") eqn:Ea; [done|]. cbn [negb andb].
      destruct (strip_prefix "//" b) as [au|] eqn:Eb; [|done]. apply strip_slashes in Eb as ->.
      destruct (contains "/" au) eqn:Eau; [done|]. exfalso. apply H. split; [by apply seqb_false|]. exists au. split; [done|]. split; [done|].
      cbn [contains] in Hq. by change (Ascii.eqb "/" "?") with false in Hq.
Qed.

Lemma plain_fragment_ok f : plain_fragment f -> no_ctl f = true /\ contains "%" f = false.
Proof.
  intros H. split.
  - unfold no_ctl. apply all_bytes_spec. intros b Hb. apply s_in_list, H in Hb as (H1 & H2 & _). change (N_of_ascii b) with (ord b) in *.
    unfold is_ctl. apply negb_true_iff, orb_false_iff. split; [by apply N.ltb_ge|by apply N.eqb_neq].
  - destruct (contains "%" f) eqn:E; [|done]. apply contains_true, s_in_list, H in E as (_ & _ & E). done.
Qed.
Lemma fragment_checked base f : is_some (parse_request_uri base) = true -> plain_fragment f ->
  (exists u, parse_request_uri (base +:+ "#" +:+ f) = Some u /\ u_fragment u = "") <-> base <> "*" /\ ~ bare_origin base.
Proof.
  intros Hb Hf. apply plain_fragment_ok in Hf as [H1 H2]. rewrite <- (parse_appended _ _ Hb H1 H2).
  change (base +:+ "#" +:+ f) with (base +:+ String "#" f). split.
  - by intros (u & -> & _).
  - destruct (parse_request_uri (base +:+ String "#" f)) as [u|] eqn:E; [|done]. intros _. exists u. split; [done|]. apply parse_request_fragment in E. apply E.
Qed.

Lemma c25_exact : forall r r' base fragment, same_but_redirect r r' -> plain_fragment fragment ->
  (forall q, parse_authorization_request r = inl q -> aq_redirect_uri q = base ->
   query_unescape (form_param r' "redirect_uri") = Some (base +:+ "#" +:+ fragment) ->
   (exists q', parse_authorization_request r' = inl q' /\ aq_redirect_uri q' = base +:+ "#" +:+ fragment) <->
   base <> "*" /\ ~ bare_origin base) /\
  (forall q, parse_token_request r = inl q -> tq_redirect_uri q = base -> base <> "" ->
   query_unescape (body_param r' "redirect_uri") = Some (base +:+ "#" +:+ fragment) ->
   (exists q', parse_token_request r' = inl q' /\ tq_redirect_uri q' = base +:+ "#" +:+ fragment) <->
   base <> "*" /\ ~ bare_origin base).
Proof.
  intros r r' base frag (Hm & Ha & (f' & Hf') & Hp) Hfr. split.
  - intros q Hq Hb Hu. unfold parse_authorization_request in Hq. rewrite <- Hm in Hq.
    destruct (_ && _) eqn:Em; [done|]. destruct (parse_form r) as [f|] eqn:Hf; [|done]. cbv zeta in Hq.
    assert (HP : forall k, k <> "redirect_uri" -> vget (f_form f') k = vget (f_form f) k).
    { intros k Hk. destruct (Hp k Hk) as [E _]. unfold form_param in E. by rewrite Hf, Hf' in E. }
    destruct (seqb (vget (f_form f) "response_type") "") eqn:E1; [done|]. destruct (seqb (vget (f_form f) "client_id") "") eqn:E2; [done|].
    destruct (query_unescape (vget (f_form f) "redirect_uri")) as [u0|] eqn:E3; [|done].
    destruct (seqb u0 "") eqn:E4; [done|]. destruct (parse_request_uri u0) as [u|] eqn:E5; [|done]. destruct (negb (seqb (u_fragment u) "")) eqn:E6; [done|].
    injection Hq as <-. cbn [aq_redirect_uri] in Hb. subst u0.
    rewrite <- (fragment_checked base frag) by (by rewrite ?E5).
    unfold parse_authorization_request. rewrite Em, Hf'. cbv zeta. rewrite !HP, E1, E2 by discriminate.
    unfold form_param in Hu. rewrite Hf' in Hu. rewrite Hu.
    assert (E7 : seqb (base +:+ "#" +:+ frag) "" = false) by (apply seqb_false; by destruct base). rewrite E7. split.
    + intros (q' & Hq' & _). destruct (parse_request_uri (base +:+ "#" +:+ frag)) as [u'|] eqn:E8; [|done]. exists u'. split; [done|].
      apply parse_request_fragment in E8. apply E8.
    + intros (u' & -> & ->). eexists. split; [reflexivity|]. done.
  - intros q Hq Hb Hbe Hu. unfold parse_token_request in Hq. rewrite <- Hm in Hq.
    destruct (negb (seqb (rq_method r') "POST")) eqn:Em; [done|]. destruct (parse_form r) as [f|] eqn:Hf; [|done]. cbv zeta in Hq.
    assert (HP : forall k, k <> "redirect_uri" -> vget (f_post f') k = vget (f_post f) k).
    { intros k Hk. destruct (Hp k Hk) as [_ E]. unfold body_param in E. by rewrite Hf, Hf' in E. }
    assert (HB : basic_auth r' = basic_auth r) by (unfold basic_auth; by rewrite Ha).
    destruct (seqb (vget (f_post f) "grant_type") "") eqn:E1; [done|].
    destruct (match basic_auth r with Some c => c | None => _ end) as [id sec] eqn:Ec. destruct (seqb id "") eqn:E2; [done|].
    destruct (query_unescape (vget (f_post f) "redirect_uri")) as [u0|] eqn:E3; [|done].
    match type of Hq with (if ?b then _ else _) = _ => destruct b eqn:E4; [done|] end.
    injection Hq as <-. cbn [tq_redirect_uri] in Hb. subst u0.
    apply seqb_false in Hbe. rewrite Hbe in E4. destruct (parse_request_uri base) as [u|] eqn:E5; [|done].
    rewrite <- (fragment_checked base frag) by (by rewrite ?E5).
    unfold parse_token_request. rewrite Em, Hf'. cbv zeta. rewrite HB, !HP, E1, Ec, E2 by discriminate.
    unfold body_param in Hu. rewrite Hf' in Hu. rewrite Hu.
    assert (E7 : seqb (base +:+ "#" +:+ frag) "" = false) by (apply seqb_false; by destruct base). rewrite E7. split.
    + intros (q' & Hq' & _). destruct (parse_request_uri (base +:+ "#" +:+ frag)) as [u'|] eqn:E8; [|done]. exists u'. split; [done|].
      apply parse_request_fragment in E8. apply E8.
    + intros (u' & -> & ->). eexists. split; [reflexivity|]. done.
Qed.

(** ** C26 *)
Lemma basic_auth_spec r id secret : basic_auth r = Some (id, secret) <->
  exists scheme b, rq_auth r = scheme +:+ " " +:+ b /\ same_ignoring_case scheme "Basic" /\
    std_decode b = Some (id +:+ ":" +:+ secret) /\ without ":" id.
Proof.
  unfold basic_auth, parse_basic_auth. split.
  - destruct (seqb (rq_auth r) ""); [done|]. destruct (take_str 6 (rq_auth r)) as [p|] eqn:Et; [|done].
    destruct (drop_str 6 (rq_auth r)) as [rest|] eqn:Ed; [|done]. destruct (equal_fold p "Basic ") eqn:Ef; [|done].
    destruct (std_decode rest) as [c|] eqn:Es; [|done]. intros Hc. apply cut_some in Hc as [-> Hc].
    destruct (take_drop_str _ _ _ _ Et Ed) as [Hr Hp].
    assert (exists sch, p = sch +:+ " " /\ same_ignoring_case sch "Basic") as (sch & -> & Hsch).
    { unfold equal_fold in Ef. apply seqb_true in Ef.
      do 6 (destruct p as [|? p]; [discriminate Hp|]). destruct p; [|discriminate Hp].
      exists (String a (String a0 (String a1 (String a2 (String a3 ""))))).
      cbn [to_lower map_bytes] in Ef. unfold to_lower in Ef. cbn [map_bytes] in Ef. injection Ef as E1 E2 E3 E4 E5 E6.
      assert (a4 = " "%char) as ->.
      { clear -E6. assert (HH : negb (Ascii.eqb (lower_byte a4) (lower_byte " ")) || Ascii.eqb a4 " " = true)
          by (clear; revert a4; apply ascii_forall; vm_compute; reflexivity).
        rewrite E6, Ascii.eqb_refl in HH. by apply Ascii.eqb_eq in HH. }
      split; [done|]. apply same_ignoring_case_fold. unfold equal_fold, to_lower. apply seqb_true. cbn [map_bytes]. congruence. }
    exists sch, rest. split; [by rewrite Hr, app_assoc_s|]. split; [done|]. split; [done|]. by apply without_contains.
  - intros (sch & b & Hr & Hs & Hd & Hc). pose proof (same_ignoring_case_len _ _ Hs) as Hl.
    assert (Hl6 : slen (sch +:+ " ") = 6) by (rewrite slen_app, Hl; done).
    assert (Hr' : rq_auth r = (sch +:+ " ") +:+ b) by (by rewrite app_assoc_s). rewrite Hr', <- Hl6, take_str_app, drop_str_app.
    assert (seqb ((sch +:+ " ") +:+ b) "" = false) as ->.
    { destruct sch; [discriminate Hl|done]. }
    assert (equal_fold (sch +:+ " ") "Basic " = true) as ->.
    { apply same_ignoring_case_fold in Hs. unfold equal_fold in *. apply seqb_true in Hs. apply seqb_true.
      rewrite to_lower_app, Hs. done. }
    rewrite Hd. change (id +:+ ":" +:+ secret) with (id +:+ String ":" secret). apply cut_app. by apply without_contains.
Qed.

Lemma c26_basic : forall r scheme b id secret,
  rq_auth r = scheme +:+ " " +:+ b -> same_ignoring_case scheme "Basic" ->
  std_decode b = Some (id +:+ ":" +:+ secret) -> without ":" id ->
  (forall q, parse_token_request r = inl q -> tq_client_id q = id /\ tq_client_secret q = secret) /\
  (forall q, parse_introspection_request r = inl q -> lq_client_id q = id /\ lq_client_secret q = secret) /\
  (forall q, parse_revocation_request r = inl q -> lq_client_id q = id /\ lq_client_secret q = secret).
Proof.
  intros r scheme b id secret H1 H2 H3 H4.
  assert (Hb : basic_auth r = Some (id, secret)) by (apply basic_auth_spec; eauto 10).
  assert (HL : forall q, parse_lookup_request r = inl q -> lq_client_id q = id /\ lq_client_secret q = secret).
  { intros q H. unfold parse_lookup_request in H. rewrite Hb in H. cbv zeta in H. split_match H. injection H as <-. done. }
  split; [|split; exact HL].
  intros q H. unfold parse_token_request in H. rewrite Hb in H. cbv zeta in H. split_match H. by injection H as <-.
Qed.

Lemma c26_body : forall r, (forall scheme b id secret, rq_auth r = scheme +:+ " " +:+ b ->
    same_ignoring_case scheme "Basic" -> without ":" id -> std_decode b <> Some (id +:+ ":" +:+ secret)) ->
  (forall q, parse_token_request r = inl q ->
     tq_client_id q = body_param r "client_id" /\ tq_client_secret q = body_param r "client_secret") /\
  (exists e, parse_introspection_request r = inr e /\ e_name e = "invalid_request" /\ e_status e = 400%Z) /\
  (exists e, parse_revocation_request r = inr e /\ e_name e = "invalid_request" /\ e_status e = 400%Z).
Proof.
  intros r Hn. assert (Hb : basic_auth r = None).
  { destruct (basic_auth r) as [[id secret]|] eqn:E; [|done]. apply basic_auth_spec in E as (sch & b & H1 & H2 & H3 & H4).
    exfalso. by eapply Hn. }
  assert (HL : exists e, parse_lookup_request r = inr e /\ e_name e = "invalid_request" /\ e_status e = 400%Z).
  { unfold parse_lookup_request. rewrite Hb. destruct (negb _); [eauto|]. destruct (parse_form r); [|eauto]. cbv zeta.
    destruct (seqb _ ""); eauto. }
  split; [|split; exact HL].
  intros q H. unfold parse_token_request in H. rewrite Hb in H. cbv zeta in H. unfold body_param. split_match H. by injection H as <-.
Qed.

(** ** Properties that fail *)
Lemma c19_refuted : exists ev s r s' w loc v,
  serve_http ev s r new_rw = (s', Some w) /\ header_values w "Location" = [loc] /\
  form_param r "response_type" = "token" /\ form_param r "state" = "a&b" /\
  loc = "https://a.example/cb#error=access_denied&state=a%2526b" /\
  parse_query (fragment_of loc) = (v, true) /\ values_of v "state" = ["a%26b"].
Proof.
  exists (case_env 5 rand1), case_server, (authorize_request "token" "a&b" "u1" "wrong"), case_server.
  eexists _, _, _. split; [vm_compute; reflexivity|]. split; [vm_compute; reflexivity|].
  split; [vm_compute; reflexivity|]. split; [vm_compute; reflexivity|]. split; [vm_compute; reflexivity|].
  split; vm_compute; reflexivity.
Qed.

Lemma c24_refuted : exists u m a t,
  u = "https://a.example/cb?x=a%26b" /\ is_Some (parse_request_uri u) /\ m !! "redirect_uri" = Some u /\
  parse_authorization_request (form_post "/authorize" "" m) = inl a /\
  aq_redirect_uri a = "https://a.example/cb?x=a&b" /\
  parse_token_request (form_post "/token" case_auth m) = inl t /\
  tq_redirect_uri t = "https://a.example/cb?x=a&b".
Proof.
  exists "https://a.example/cb?x=a%26b",
    (form_of [("response_type", "code"); ("grant_type", "authorization_code"); ("client_id", "c1");
              ("redirect_uri", "https://a.example/cb?x=a%26b")]).
  eexists _, _. split; [done|]. split; [eexists; vm_compute; reflexivity|]. split; [vm_compute; reflexivity|].
  split; [vm_compute; reflexivity|]. split; [vm_compute; reflexivity|]. split; vm_compute; reflexivity.
Qed.

Lemma c25_refuted : exists u m a t,
  u = "https://a.example/cb#frag" /\ m !! "redirect_uri" = Some u /\
  parse_authorization_request (form_post "/authorize" "" m) = inl a /\ aq_redirect_uri a = u /\
  parse_token_request (form_post "/token" case_auth m) = inl t /\ tq_redirect_uri t = u.
Proof.
  exists "https://a.example/cb#frag",
    (form_of [("response_type", "code"); ("grant_type", "authorization_code"); ("client_id", "c1");
              ("redirect_uri", "https://a.example/cb#frag")]).
  eexists _, _. split; [done|]. split; [vm_compute; reflexivity|].
  split; [vm_compute; reflexivity|]. split; [vm_compute; reflexivity|]. split; vm_compute; reflexivity.
Qed.

Lemma c22_colon : exists q r q', build_token_request "https://s.example/token" q = Some r /\
  tq_client_id q = "a:b" /\ parse_token_request r = inl q' /\ tq_client_id q' = "a".
Proof.
  exists {| tq_grant_type := "password"; tq_scope := None; tq_client_id := "a:b"; tq_client_secret := "x";
     tq_username := ""; tq_password := ""; tq_refresh_token := ""; tq_redirect_uri := ""; tq_code := "" |}.
  eexists _, _. split; [vm_compute; reflexivity|]. split; [done|]. split; vm_compute; reflexivity.
Qed.

Lemma form_post_redirect path auth m v :
  fits_form_limit (form_post path auth m) -> fits_form_limit (form_post path auth (<["redirect_uri" := v]> m)) ->
  (exists f, parse_form (form_post path auth (<["redirect_uri" := v]> m)) = Some f) ->
  same_but_redirect (form_post path auth m) (form_post path auth (<["redirect_uri" := v]> m)).
Proof.
  intros H1 H2 Hf. split; [done|]. split; [done|]. split; [done|]. intros k Hk.
  destruct (form_param_post path auth m k H1) as [-> ->], (form_param_post path auth (<["redirect_uri" := v]> m) k H2) as [-> ->].
  by rewrite lookup_insert_ne.
Qed.
