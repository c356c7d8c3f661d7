(** Proofs about the helpers (C85). *)
From Verif.Model Require Import Oauth2 Token Endpoints Errors Hs256.
From Verif.Spec Require Import TokenSpec WireSpec NumberSpec ClientSpec DocumentSpec HelperSpec.
From Verif.Proof Require Import StrFacts Base64Facts HsFacts TokenProofs DecFacts WireFacts WireProofs Redirect JsonFacts CodecFacts CodecProofs JsonText DocumentFacts.

(** ** Maps *)
Lemma put_lookup k x m k' v : put k x m !! k' = Some v <->
  unless_empty k x k' v \/ ((k' <> k \/ x = "") /\ m !! k' = Some v).
Proof.
  unfold put, unless_empty. destruct (seqb x "") eqn:E.
  - apply seqb_true in E as ->. split; [auto|]. intros [(_ & -> & ?)|(_ & ?)]; done.
  - apply seqb_false in E. destruct (decide (k' = k)) as [->|Hk].
    + rewrite lookup_insert. split; [intros [= <-]; auto|]. intros [(_ & -> & _)|([?|?] & _)]; done.
    + rewrite lookup_insert_ne by done. split; [auto|]. intros [(? & _)|(_ & ?)]; done.
Qed.
Lemma insert_spec {A} (k : string) (x : A) (m : gmap string A) k' v : <[k := x]> m !! k' = Some v <-> (k' = k /\ v = x) \/ (k' <> k /\ m !! k' = Some v).
Proof. rewrite lookup_insert_Some. naive_solver. Qed.

Lemma c85_token_map : forall r k v, token_map r !! k = Some v <-> token_param r k v.
Proof.
  intros r k v. unfold token_map, token_param, scope_words. cbv zeta.
  rewrite put_lookup. unfold unless_empty.
  destruct (tr_scope r) as [l|] eqn:Es.
  - change (scope_string (Some l)) with (join " " (items (Some l))).
    rewrite insert_spec, put_lookup, !insert_spec, lookup_empty. unfold unless_empty.
    split; [naive_solver|]. intros H. decompose [or and] H; subst; clear H; try (destruct (decide (tr_state r = ""))); try (destruct (decide (tr_refresh_token r = ""))); naive_solver.
  - rewrite put_lookup, !insert_spec, lookup_empty. unfold unless_empty.
    split; [naive_solver|]. intros H. decompose [or and] H; subst; clear H; naive_solver.
Qed.

Lemma c85_code_map : forall r k v, code_map r !! k = Some v <-> code_param r k v.
Proof.
  intros r k v. unfold code_map, code_param. rewrite put_lookup, insert_spec, lookup_empty. unfold unless_empty.
  split; [naive_solver|]. intros H. decompose [or and] H; subst; clear H; naive_solver.
Qed.
Lemma c85_error_map : forall e k v, error_map e !! k = Some v <-> error_param e k v.
Proof. exact error_map_spec. Qed.

Lemma c85_numbers : forall z, int64 z -> json_number (itoa z) /\ is_integer (JNum (itoa z)) z.
Proof.
  intros z Hz. assert (json_number (itoa z)) by exact (proj2 (scan_number_some _ _ _ (scan_number_itoa z "" eq_refl))). split; [done|].
  apply parse_int64_spec; [done|]. by apply parse_int64_itoa.
Qed.

(** ** Documents *)
Lemma in_omit_string k x k' j : In (k', j) (omit_string k x) <-> optional_text k x k' j.
Proof.
  unfold omit_string, optional_text. destruct (seqb x "") eqn:E.
  - apply seqb_true in E as ->. cbn. naive_solver.
  - apply seqb_false in E. cbn. naive_solver.
Qed.
Lemma in_omit_scope k x k' j : In (k', j) (omit_scope k x) <-> optional_scope k x k' j.
Proof.
  unfold omit_scope, optional_scope, scope_empty, scope_json, scope_string, scope_words.
  destruct (items x); cbn; naive_solver.
Qed.
Lemma in_omit_int k z k' j : In (k', j) (omit_int k z) <-> optional_number k z k' j.
Proof. unfold omit_int, optional_number. destruct (Z.eqb_spec z 0) as [->|]; cbn; naive_solver. Qed.
Lemma in_omit_map k m k' j : In (k', j) (omit_map k m) <-> k' = k /\ exists l, m = Some l /\ l <> [] /\ j = JObj l.
Proof. unfold omit_map. destruct m as [[|x l]|]; cbn; naive_solver. Qed.

Lemma obj_inj a b : JObj a = JObj b -> a = b.
Proof. by intros [=]. Qed.
Lemma token_members r o : token_json r = JObj o -> forall k j, In (k, j) o <-> token_member r k j.
Proof.
  unfold token_json. intros <-%obj_inj k j. unfold token_member.
  rewrite !in_app_iff, !in_omit_string, in_omit_scope. cbn [In].
  match goal with |- _ \/ ?T <-> _ => generalize T end. intros T. rewrite !pair_equal_spec. intuition congruence.
Qed.
Lemma introspection_members r o : introspection_json r = JObj o -> forall k j, In (k, j) o <-> introspection_member r k j.
Proof.
  unfold introspection_json. intros <-%obj_inj k j. unfold introspection_member.
  rewrite !in_app_iff, !in_omit_string, in_omit_scope, !in_omit_int, in_omit_map. cbn [In].
  match goal with |- _ \/ ?T <-> _ => generalize T end. intros T. rewrite pair_equal_spec. intuition congruence.
Qed.

(** Each name once. *)
Lemma keys_cons k x (l : list (string * json)) : ~ In k (map fst l) -> List.NoDup (map fst l) -> List.NoDup (map fst ((k, x) :: l)).
Proof. intros. by constructor. Qed.
Lemma keys_string k x l : ~ In k (map fst l) -> List.NoDup (map fst l) -> List.NoDup (map fst (omit_string k x ++ l)%list).
Proof. intros. unfold omit_string. destruct (seqb x ""); [done|]. by constructor. Qed.
Lemma keys_scope k x l : ~ In k (map fst l) -> List.NoDup (map fst l) -> List.NoDup (map fst (omit_scope k x ++ l)%list).
Proof. intros. unfold omit_scope. destruct (scope_empty x); [done|]. by constructor. Qed.
Lemma keys_int k x l : ~ In k (map fst l) -> List.NoDup (map fst l) -> List.NoDup (map fst (omit_int k x ++ l)%list).
Proof. intros. unfold omit_int. destruct (x =? 0)%Z; [done|]. by constructor. Qed.
Lemma in_key_string k x l k' : In k' (map fst (omit_string k x ++ l)%list) -> k' = k \/ In k' (map fst l).
Proof. unfold omit_string. destruct (seqb x ""); cbn; intuition. Qed.
Lemma in_key_scope k x l k' : In k' (map fst (omit_scope k x ++ l)%list) -> k' = k \/ In k' (map fst l).
Proof. unfold omit_scope. destruct (scope_empty x); cbn; intuition. Qed.
Lemma in_key_int k x l k' : In k' (map fst (omit_int k x ++ l)%list) -> k' = k \/ In k' (map fst l).
Proof. unfold omit_int. destruct (x =? 0)%Z; cbn; intuition. Qed.
Lemma in_key_map k x k' : In k' (map fst (omit_map k x)) -> k' = k.
Proof. unfold omit_map. destruct x as [[|y l]|]; cbn; intuition. Qed.
Lemma in_key_last k x k' : In k' (map fst (omit_string k x)) -> k' = k.
Proof. unfold omit_string. destruct (seqb x ""); cbn; intuition. Qed.
Ltac absent := let H := fresh in intros H;
  repeat first [apply in_key_string in H | apply in_key_scope in H | apply in_key_int in H | apply in_key_map in H | apply in_key_last in H
               | destruct H as [H|H]]; discriminate H.
Lemma token_keys r o : token_json r = JObj o -> List.NoDup (map fst o).
Proof.
  unfold token_json. intros <-%obj_inj. cbn [app].
  do 3 (apply keys_cons; [cbn [map fst In]; absent|]).
  apply keys_string; [absent|]. apply keys_scope; [absent|].
  unfold omit_string. destruct (seqb _ ""); repeat constructor. auto.
Qed.
Lemma introspection_keys r o : introspection_json r = JObj o -> List.NoDup (map fst o).
Proof.
  unfold introspection_json. intros <-%obj_inj. cbn [app].
  apply keys_cons; [absent|]. apply keys_scope; [absent|].
  do 3 (apply keys_string; [absent|]). do 3 (apply keys_int; [absent|]). do 4 (apply keys_string; [absent|]).
  unfold omit_map. destruct (ir_extra r) as [[|y l]|]; repeat constructor; auto.
Qed.

Lemma written w0 o member : unsent w0 -> sendable (JObj o) -> List.NoDup (map fst o) -> (forall k j, In (k, j) o <-> member k j) ->
  writes_document w0 (write w0 (JObj o) 200) member.
Proof.
  intros [Hs Hb] [Hok Hd] Hn Hm. unfold writes_document.
  rewrite write_fresh by (done || (unfold valid_status; lia)).
  change (body_allowed 200) with true. cbv iota.
  eexists _, _, o. split; [reflexivity|]. cbn [rw_sent rw_body]. split; [reflexivity|].
  split; [intros k l; apply json_headers_lookup|]. rewrite Hb, app_nil_s, json_roundtrip_nl by done.
  split; [done|]. split; [|done]. by apply NoDup_ListNoDup.
Qed.

Lemma c85_token_document : forall w0 r, unsent w0 -> tr_redirect_uri r = "" -> token_texts r ->
  writes_document w0 (write_token_response w0 r) (token_member r).
Proof.
  intros w0 r Hw Hr Ht. unfold write_token_response. rewrite Hr. change (negb (seqb "" "")) with false. cbv iota.
  pose proof (token_sendable r Ht) as Hs. destruct (token_json r) as [| | | | |o] eqn:E; try discriminate E.
  apply written; [done|done|by apply (token_keys r)|by apply token_members].
Qed.
Lemma c85_introspection_document : forall w0 r, unsent w0 ->
  (ir_active r = true -> In (ir_token_type r) ["access_token"; "refresh_token"]) ->
  introspection_texts_with json_number r ->
  writes_document w0 (write_introspection_response w0 r) (introspection_member r).
Proof.
  intros w0 r Hw Hk Ht. unfold write_introspection_response.
  assert (ir_active r && negb (known_token_type (ir_token_type r)) = false) as ->.
  { destruct (ir_active r); [|done]. destruct (Hk eq_refl) as [<-|[<-|[]]]; done. }
  pose proof (introspection_sendable json_number r (fun _ H => H) Ht) as Hs.
  destruct (introspection_json r) as [| | | | |o] eqn:E; try discriminate E.
  apply written; [done|done|by apply (introspection_keys r)|by apply introspection_members].
Qed.
Lemma c85_introspection_refused : forall w0 r, ir_active r = true -> ~ In (ir_token_type r) ["access_token"; "refresh_token"] ->
  write_introspection_response w0 r = Some (w0, false).
Proof.
  intros w0 r Ha Hk. unfold write_introspection_response. rewrite Ha.
  assert (known_token_type (ir_token_type r) = false) as ->; [|done].
  unfold known_token_type. apply orb_false_iff. rewrite !seqb_false. cbn [In] in Hk.
  split; intros E; apply Hk; rewrite E; auto.
Qed.

(** ** Redirects *)
Lemma redirected w0 uri m param frag : (forall k v, m !! k = Some v <-> param k v) ->
  writes_redirect w0 (write_redirect w0 uri m frag) uri param frag.
Proof.
  intros Hm u [Hs Hb] Hl Hp Ha Hstar Hh. exists m.
  rewrite write_redirect_fresh by done.
  assert (exists loc, redirect_location uri m frag = Some loc /\ location_reads u loc m frag) as (loc & -> & Hr).
  { destruct frag.
    - destruct (c17_target uri u m Hp Ha Hstar Hh) as (loc & u' & E & Hu' & Ht & Hq).
      destruct (c17_exact uri u m Hp Hh) as (loc' & v & E' & Hv). rewrite E in E'. injection E' as <-.
      exists loc. split; [done|]. exists u'. split; [done|]. split; [done|]. split; [done|]. exists v. exact Hv.
    - destruct (c16_query uri u m Hp Ha Hstar) as (loc & u' & E & Hu' & Ht & Hf).
      exists loc. split; [done|]. exists u'. done. }
  eexists _, _, loc. split; [done|]. split; [reflexivity|]. cbn [rw_sent rw_body]. split; [reflexivity|]. split; [done|].
  split; [|done]. intros k. rewrite redirect_headers_lookup, Hl. cbn [default].
  repeat case_decide; subst; done.
Qed.
Lemma c85_token_redirect : forall w0 r, tr_redirect_uri r <> "" ->
  writes_redirect w0 (write_token_response w0 r) (tr_redirect_uri r) (token_param r) true.
Proof.
  intros w0 r Hr. unfold write_token_response. rewrite (proj2 (seqb_false _ _) Hr). cbn [negb].
  apply redirected, c85_token_map.
Qed.
Lemma c85_code_redirect : forall w0 r, writes_redirect w0 (write_code_response w0 r) (cr_redirect_uri r) (code_param r) false.
Proof. intros w0 r. apply redirected, c85_code_map. Qed.
Lemma c85_error_redirect : forall w0 e, e_redirect_uri e <> "" -> e_headers e = ∅ ->
  writes_redirect w0 (write_error w0 (GErr e)) (e_redirect_uri e) (error_param e) (e_use_fragment e).
Proof.
  intros w0 e Hr Hh. unfold write_error, write_error_order. rewrite Hh, map_to_list_empty. cbn [fold_left]. rewrite (proj2 (seqb_false _ _) Hr). cbn [negb].
  apply redirected, error_map_spec.
Qed.

(** ** Request forms *)
Lemma vput_lookup k c x (m : values) k' l : vput k c x m !! k' = Some l <->
  (k' = k /\ l = [x] /\ c <> "") \/ ((k' <> k \/ c = "") /\ m !! k' = Some l).
Proof.
  unfold vput. destruct (seqb c "") eqn:E.
  - apply seqb_true in E as ->. naive_solver.
  - apply seqb_false in E. unfold values. rewrite lookup_insert_Some. naive_solver.
Qed.
Ltac here := first [by split_and! | left; by split_and! | right; here].
Ltac there H := repeat (destruct H as [H|H]; [destruct H as (-> & -> & ?);
    repeat first [left; by split_and! | right; split; [left; discriminate|]]|]);
  destruct H as (-> & -> & ?); repeat first [left; by split_and! | right; split; [left; discriminate|]].
Lemma c85_token_form : forall r, has_fields (token_request_values r) (token_field r).
Proof.
  intros r k l. unfold token_request_values, token_field, scope_words. cbv zeta.
  rewrite !vput_lookup. unfold unless_empty.
  assert (forall m, (if Nat.eqb (length (items (tq_scope r))) 0 then m else <["scope" := [scope_string (tq_scope r)]]> m) !! k = Some l <->
    (k = "scope" /\ l = [join " " (items (tq_scope r))] /\ items (tq_scope r) <> []) \/ ((k <> "scope" \/ items (tq_scope r) = []) /\ m !! k = Some l)) as ->.
  { intros m. unfold scope_string. destruct (items (tq_scope r)) eqn:E; cbn [length Nat.eqb]; [naive_solver|].
    unfold values. rewrite insert_spec. naive_solver. }
  rewrite vput_lookup. unfold values. rewrite lookup_empty.
  split.
  - intros H. repeat (destruct H as [(-> & -> & ?)|[_ H]]; [eexists; split; [reflexivity|]; here|]). discriminate H.
  - intros (x & -> & H). there H.
Qed.
Lemma c85_lookup_form : forall r, has_fields (lookup_request_values r) (lookup_field r).
Proof.
  intros r k l. unfold lookup_request_values, lookup_field. cbv zeta.
  rewrite !vput_lookup. unfold unless_empty, values. rewrite lookup_empty.
  split.
  - intros H. repeat (destruct H as [(-> & -> & ?)|[_ H]]; [eexists; split; [reflexivity|]; here|]). discriminate H.
  - intros (x & -> & H). there H.
Qed.

(** ** Names *)
Lemma c85_known_grants : forall s, known_grant_type s = true <-> In s ["password"; "client_credentials"; "authorization_code"; "refresh_token"].
Proof. intros s. unfold known_grant_type, PasswordGrantType, ClientCredentialsGrantType, AuthorizationCodeGrantType, RefreshTokenGrantType. rewrite !orb_true_iff, !seqb_true. cbn. intuition congruence. Qed.
Lemma c85_known_responses : forall s, known_response_type s = true <-> In s ["token"; "code"].
Proof. intros s. unfold known_response_type, TokenResponseType, CodeResponseType. rewrite !orb_true_iff, !seqb_true. cbn. intuition congruence. Qed.
Lemma c85_known_tokens : forall s, known_token_type s = true <-> In s ["access_token"; "refresh_token"].
Proof. intros s. unfold known_token_type, AccessToken, RefreshToken. rewrite !orb_true_iff, !seqb_true. cbn. intuition congruence. Qed.

Lemma c85_valid : forall t secret, hs_valid t secret = true <-> hs_signature t = hmac_sha256 secret (hs_key t).
Proof. exact hs_valid_spec. Qed.
Lemma c85_equal : forall t s, hs_equal t s = true <-> hs_signature t = s.
Proof. intros t s. apply seqb_true. Qed.

(** ** Constructors *)
Lemma c85_bearer : forall t z k v, token_map (new_bearer_token_response t z) !! k = Some v <->
  (k = "token_type" /\ v = "bearer") \/ (k = "access_token" /\ v = t) \/ (k = "expires_in" /\ v = itoa z).
Proof.
  intros t z k v. rewrite c85_token_map. unfold token_param, unless_empty. cbn.
  unfold BearerAccessTokenType. intuition congruence.
Qed.
Lemma c85_token_set_redirect : forall w0 r uri state, uri <> "" ->
  writes_redirect w0 (write_token_response w0 (set_token_redirect r uri state)) uri
    (fun k v => unless_empty "state" state k v \/ (k <> "state" /\ token_param r k v)) true.
Proof.
  intros w0 r uri state Hu. unfold write_token_response. cbn [tr_redirect_uri set_token_redirect].
  rewrite (proj2 (seqb_false _ _) Hu). cbn [negb]. apply redirected. intros k v. rewrite c85_token_map.
  unfold token_param, unless_empty. cbn [tr_token_type tr_access_token tr_expires_in tr_refresh_token tr_scope tr_state set_token_redirect].
  split.
  - intros H. repeat (destruct H as [H|H]; [right; destruct H as [-> H]; split; [discriminate|]; tauto|]). by left.
  - intros [H|[Hk H]]; [tauto|]. repeat (destruct H as [H|H]; [tauto|]). by destruct H.
Qed.
Lemma c85_error_set_redirect : forall w0 e uri state frag, uri <> "" -> e_headers e = ∅ ->
  writes_redirect w0 (write_error w0 (GErr (set_error_redirect e uri state frag))) uri
    (fun k v => unless_empty "state" state k v \/ (k <> "state" /\ error_param e k v)) frag.
Proof.
  intros w0 e uri state frag Hu Hh. unfold write_error, write_error_order. cbn [e_headers e_redirect_uri e_use_fragment set_error_redirect].
  rewrite Hh, map_to_list_empty. cbn [fold_left].
  rewrite (proj2 (seqb_false _ _) Hu). cbn [negb]. apply redirected. intros k v. rewrite error_map_spec.
  unfold error_param, unless_empty. cbn [e_name e_description e_state e_scope e_uri e_realm set_error_redirect].
  split.
  - intros H. decompose [or and] H; clear H; subst; first [by left|right; split; [discriminate|tauto]].
  - intros [H|[Hk H]]; [tauto|]. decompose [or and] H; clear H; subst; try tauto; done.
Qed.

(** ** The text of an error *)
Lemma without_contains a s : without a s -> contains a s = false.
Proof.
  unfold without. induction s as [|b s IH]; [done|]. intros H. cbn [contains list_ascii_of_string In] in *.
  apply orb_false_iff. split; [|tauto]. apply Ascii.eqb_neq. intros ->. tauto.
Qed.
Lemma c85_error_text : forall e n d, without ":" (e_name e) -> without ":" n ->
  error_string e = n +:+ ": " +:+ d <-> n = e_name e /\ d = e_description e.
Proof.
  intros e n d H1%without_contains H2%without_contains. unfold error_string. split; [|by intros [-> ->]].
  intros H. apply (f_equal (cut ":")) in H. change (": " +:+ d) with (String ":" (String " " d)) in H.
  change (": " +:+ e_description e) with (String ":" (String " " (e_description e))) in H.
  rewrite !cut_app in H by done. by injection H as -> ->.
Qed.

(** ** More number literals are allowed than a Go float gives *)
Lemma go_value_weaken (p q : string -> Prop) j : (forall s, p s -> q s) -> go_value p j -> go_value q j.
Proof.
  intros Hpq. induction j as [|b|lit|s|l IH|l IH] using json_ind2; intros Hj; inversion Hj as [| | |? Hs|? HF|? Hs HF]; subst; constructor; try done; auto.
  - clear Hj. induction HF as [|x l Hx HF IHl]; [done|]. inversion IH; subst. constructor; auto.
  - clear Hj Hs. induction HF as [|x l [Hk Hx] HF IHl]; [done|]. inversion IH; subst. constructor; auto.
Qed.
Lemma texts_weaken (p q : string -> Prop) r : (forall s, p s -> q s) -> introspection_texts_with p r -> introspection_texts_with q r.
Proof.
  intros Hpq (H1 & H2 & H3 & H4 & H5 & H6 & H7 & H8 & H9 & H10 & H11 & Hx & Hn). unfold introspection_texts_with.
  split_and!; try done. by apply (go_value_weaken p).
Qed.
