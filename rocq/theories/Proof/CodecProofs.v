(** C56, C57, C62: documents read back. *)
From Verif.Model Require Import GoStr Server Client.
From Verif.Spec Require Import ScopeSpec WireSpec RequestSpec ServerSpec ClientSpec.
From Verif.Proof Require Import StrFacts UrlFacts DecFacts JsonFacts ScopeFacts ScopeProofs WireFacts WireProofs NumberFacts NumberProofs CodecFacts.
From Coq Require Import ZifyBool ZifyNat ZifyN.

Ltac fields :=
  rewrite ?decode_stored, ?members_app, ?members_cons, ?members_nil, ?members_omit_string, ?members_omit_scope,
    ?members_omit_int, ?members_omit_map;
  repeat match goal with |- context [field_match ?a ?b] =>
    let v := eval vm_compute in (field_match a b) in change (field_match a b) with v end;
  cbv iota; rewrite ?app_nil_r, ?app_nil_l.

Lemma token_of_token_json r : int64 (tr_expires_in r) ->
  token_of_json (token_json r) =
  Some {| tr_token_type := tr_token_type r; tr_access_token := tr_access_token r; tr_expires_in := tr_expires_in r;
          tr_refresh_token := tr_refresh_token r; tr_scope := read_scope (tr_scope r); tr_state := tr_state r;
          tr_redirect_uri := "" |}.
Proof.
  intros Hi. unfold token_json, token_of_json. fields.
  by rewrite !stored_string1, !stored_string, stored_int1, stored_scope.
Qed.

Lemma error_of_error_json e :
  error_of_json (error_json e) =
  Some {| e_name := e_name e; e_state := e_state e; e_scope := read_scope (e_scope e); e_realm := e_realm e;
          e_description := e_description e; e_uri := e_uri e; e_status := 0; e_headers := ∅;
          e_redirect_uri := ""; e_use_fragment := false |}.
Proof.
  unfold error_json, error_of_json. fields.
  by rewrite !stored_string1, !stored_string, stored_scope.
Qed.

Lemma introspection_of_introspection_json num r : introspection_texts_with num r ->
  introspection_of_json (introspection_json r) =
  option_map (fun x => {| ir_active := ir_active r; ir_scope := read_scope (ir_scope r); ir_client_id := ir_client_id r;
          ir_username := ir_username r; ir_token_type := ir_token_type r; ir_expires_at := ir_expires_at r;
          ir_issued_at := ir_issued_at r; ir_not_before := ir_not_before r; ir_subject := ir_subject r;
          ir_audience := ir_audience r; ir_issuer := ir_issuer r; ir_identifier := ir_identifier r; ir_extra := x |})
    (stored store_map None (match ir_extra r with None | Some [] => [] | Some l => [JObj l] end)).
Proof.
  intros (_ & _ & _ & _ & H1 & H2 & H3 & _ & _ & _ & _ & Hx & _).
  unfold introspection_json, introspection_of_json. fields.
  rewrite !stored_string, !stored_int, stored_scope by done. by destruct (stored store_map None _).
Qed.

(** The documents are JSON. *)
Lemma omit_string_forall (P : string * json -> Prop) k v : (v <> "" -> P (k, JStr v)) -> Forall P (omit_string k v).
Proof. unfold omit_string. destruct (seqb v "") eqn:E; [constructor|]. apply seqb_false in E. auto. Qed.
Lemma omit_scope_forall (P : string * json -> Prop) k v : P (k, scope_json v) -> Forall P (omit_scope k v).
Proof. unfold omit_scope. destruct (scope_empty v); auto. Qed.
Lemma omit_int_forall (P : string * json -> Prop) k v : P (k, JNum (itoa v)) -> Forall P (omit_int k v).
Proof. unfold omit_int. destruct (v =? 0)%Z; auto. Qed.
Lemma omit_map_forall (P : string * json -> Prop) k v : P (k, JObj (default [] v)) -> Forall P (omit_map k v).
Proof. unfold omit_map. destruct v as [[|x l]|]; auto. Qed.

Lemma jdepth_obj l d : (0 < d)%N -> Forall (fun kv => (jdepth (snd kv) < d)%N) l -> (jdepth (JObj l) <= d)%N.
Proof. intros Hd. cbn. induction 1 as [|x l Hx HF IH]; cbn; lia. Qed.

Definition sendable (j : json) : Prop := json_ok j /\ (jdepth j <= max_depth)%N.
Lemma sendable_obj l :
  Forall (fun kv => (valid_utf8 (fst kv) /\ json_ok (snd kv)) /\ (jdepth (snd kv) < max_depth)%N) l -> sendable (JObj l).
Proof.
  intros H. split.
  - apply json_ok_obj. eapply Forall_impl; [exact H|]. by intros kv [? ?].
  - apply jdepth_obj; [done|]. eapply Forall_impl; [exact H|]. by intros kv [? ?].
Qed.
Lemma sendable_scope k sc : valid_utf8 k -> Forall valid_utf8 (items sc) ->
  (valid_utf8 k /\ json_ok (scope_json sc)) /\ (jdepth (scope_json sc) < max_depth)%N.
Proof. intros Hk H. split; [|done]. split; [done|]. by apply valid_utf8_scope. Qed.

Lemma token_sendable r : token_texts r -> sendable (token_json r).
Proof.
  intros (H1 & H2 & _ & H3 & [_ H4] & H5). apply sendable_obj.
  rewrite !Forall_app. split_and!.
  - repeat constructor; cbn [fst snd]; try (by apply ascii_utf8); try done. all: apply num_ok_itoa.
  - apply omit_string_forall. intros _. split; [split; [by apply ascii_utf8|done]|done].
  - apply omit_scope_forall. apply sendable_scope; [by apply ascii_utf8|done].
  - apply omit_string_forall. intros _. split; [split; [by apply ascii_utf8|done]|done].
Qed.

Lemma introspection_sendable (num : string -> Prop) r : (forall s, num s -> json_number s) -> introspection_texts_with num r -> sendable (introspection_json r).
Proof.
  intros Hnum ([_ H1] & H2 & H3 & H4 & _ & _ & _ & H5 & H6 & H7 & H8 & Hx & Hn). apply sendable_obj.
  rewrite !Forall_app. split_and!;
    try (apply omit_string_forall; intros _; split; [split; [by apply ascii_utf8|done]|done]);
    try (apply omit_int_forall; split; [split; [by apply ascii_utf8|apply num_ok_itoa]|done]).
  - repeat constructor. by apply ascii_utf8.
  - apply omit_scope_forall. apply sendable_scope; [by apply ascii_utf8|done].
  - apply omit_map_forall. split; [split; [by apply ascii_utf8|]|].
    + by apply (go_value_ok num).
    + rewrite nesting_jdepth in Hn. exact Hn.
Qed.
Lemma error_sendable e : error_fields_utf8 e -> sendable (error_json e).
Proof. apply error_json_ok. Qed.

(** ** Reading a response *)
Lemma take_max_all n s : slen s <= n -> take_max n s = s.
Proof. revert n. induction s as [|a s IH]; intros [|n] H; cbn in *; try done; [lia|]. f_equal. apply IH. lia. Qed.
Lemma read_all rs limit : rs_clean rs = true -> (Z.of_nat (slen (rs_body rs)) <= limit)%Z ->
  read_limited rs limit = (rs_body rs, true).
Proof.
  intros Hc H. unfold read_limited. destruct (Nat.leb_spec (Z.to_nat limit) (slen (rs_body rs))).
  - by rewrite take_max_all by lia.
  - by rewrite Hc.
Qed.

(** The writer after a document was written to [w0]. *)
Lemma written_document w0 j c : unsent w0 -> status_with_body c ->
  exists w, write w0 j c = Some (w, true) /\ rw_body w = json_encode j /\
    received w = Some {| rs_status := c; rs_ctype := "application/json;charset=UTF-8"; rs_body := json_encode j; rs_clean := true |}.
Proof.
  intros [Hs Hb] Hc.
  assert (Hv : valid_status c) by (unfold status_with_body, valid_status in *; lia).
  rewrite write_fresh by done. rewrite (proj2 (body_allowed_spec c Hv) Hc).
  eexists. split; [reflexivity|]. cbn [rw_body]. rewrite Hb, app_nil_s. split; [done|].
  unfold received. cbn [rw_sent rw_body].
  assert (rw_header (json_headers w0) !! "Content-Type" = Some ["application/json;charset=UTF-8"]) as ->; [|done].
  apply json_headers_lookup. left. by left.
Qed.
Lemma json_media : parse_media_type "application/json;charset=UTF-8" = ("application/json", true).
Proof. vm_compute. reflexivity. Qed.

Lemma read_document c j limit : (Z.of_nat (slen (json_encode j)) <= limit)%Z ->
  read_json_body {| rs_status := c; rs_ctype := "application/json;charset=UTF-8"; rs_body := json_encode j; rs_clean := true |} limit
  = Some (json_encode j).
Proof. intros H. unfold read_json_body. rewrite read_all by done. cbn [rs_ctype rs_body negb]. rewrite json_media. done. Qed.

Lemma c56_roundtrip : forall w0 r, unsent w0 -> tr_redirect_uri r = "" -> token_texts r ->
  exists w rs, write_token_response w0 r = Some (w, true) /\ received w = Some rs /\ rs_status rs = 200%Z /\
    forall limit, fits w limit -> exists r', parse_token_response rs limit = Some r' /\ same_token r r'.
Proof.
  intros w0 r Hw Hr Ht. unfold write_token_response. rewrite Hr. change (negb (seqb "" "")) with false. cbv iota.
  destruct (written_document w0 (token_json r) 200 Hw) as (w & Hwr & Hb & Hrec); [unfold status_with_body; lia|].
  eexists w, _. split; [done|]. split; [done|]. split; [done|]. intros limit Hl. unfold fits in Hl. rewrite Hb in Hl.
  unfold parse_token_response. rewrite read_document by done.
  destruct (token_sendable r Ht) as [H1 H2]. rewrite json_roundtrip_nl by done.
  rewrite token_of_token_json by apply Ht. eexists. split; [reflexivity|].
  destruct Ht as (_ & _ & _ & _ & [Hg _] & _).
  unfold same_token. cbn. rewrite read_scope_items by done. done.
Qed.

(** An introspection response, sent and read. *)
Lemma introspection_read (num : string -> Prop) w0 r : unsent w0 -> (forall s, num s -> json_number s) ->
  (ir_active r = true -> In (ir_token_type r) ["access_token"; "refresh_token"]) -> introspection_texts_with num r ->
  exists w rs, write_introspection_response w0 r = Some (w, true) /\ received w = Some rs /\ rs_status rs = 200%Z /\
    forall limit, fits w limit -> parse_introspection_response rs limit = introspection_of_json (introspection_json r).
Proof.
  intros Hw Hnum Hk Ht. unfold write_introspection_response.
  assert (ir_active r && negb (known_token_type (ir_token_type r)) = false) as ->.
  { destruct (ir_active r); [|done]. by destruct (Hk eq_refl) as [<-|[<-|[]]]. }
  destruct (written_document w0 (introspection_json r) 200 Hw) as (w & Hwr & Hb & Hrec); [unfold status_with_body; lia|].
  eexists w, _. split; [done|]. split; [done|]. split; [done|]. intros limit Hl. unfold fits in Hl. rewrite Hb in Hl.
  unfold parse_introspection_response. rewrite read_document by done.
  destruct (introspection_sendable num r Hnum Ht) as [H1 H2]. by rewrite json_roundtrip_nl by done.
Qed.
Lemma float_json_number s : float_literal s -> json_number s.
Proof. intros (v & Hv & _). by exists v. Qed.
Lemma c57_roundtrip : forall w0 r, unsent w0 -> (ir_active r = true -> In (ir_token_type r) ["access_token"; "refresh_token"]) ->
  introspection_texts r ->
  exists w rs, write_introspection_response w0 r = Some (w, true) /\ received w = Some rs /\ rs_status rs = 200%Z /\
    forall limit, fits w limit -> exists r', parse_introspection_response rs limit = Some r' /\ same_introspection r r'.
Proof.
  intros w0 r Hw Hk Ht. destruct (introspection_read _ w0 r Hw float_json_number Hk Ht) as (w & rs & H1 & H2 & H3 & H4).
  exists w, rs. split; [done|]. split; [done|]. split; [done|]. intros limit Hl. rewrite (H4 limit Hl).
  rewrite (introspection_of_introspection_json _ r Ht).
  destruct Ht as ([Hg _] & _ & _ & _ & _ & _ & _ & _ & _ & _ & _ & Hx & _).
  destruct (stored_map (ir_extra r) Hx) as (x & -> & Hs). eexists. split; [reflexivity|].
  unfold same_introspection. cbn. rewrite read_scope_items by done. done.
Qed.

Lemma c71_nearest : forall w0 r, unsent w0 -> (ir_active r = true -> In (ir_token_type r) ["access_token"; "refresh_token"]) ->
  introspection_texts_with float_literal r ->
  exists w rs, write_introspection_response w0 r = Some (w, true) /\ received w = Some rs /\
    forall limit, fits w limit -> exists r', parse_introspection_response rs limit = Some r' /\
      same_value (JObj (default [] (ir_extra r))) (JObj (default [] (ir_extra r'))).
Proof.
  intros w0 r Hw Hk Ht. destruct (c57_roundtrip w0 r Hw Hk Ht) as (w & rs & H1 & H2 & _ & H4).
  exists w, rs. split; [done|]. split; [done|]. intros limit Hl. destruct (H4 limit Hl) as (r' & Hp & Hs).
  exists r'. split; [done|]. apply Hs.
Qed.
Lemma c71_exact : forall w0 r, unsent w0 -> (ir_active r = true -> In (ir_token_type r) ["access_token"; "refresh_token"]) ->
  introspection_texts_with exact_literal r ->
  exists w rs, write_introspection_response w0 r = Some (w, true) /\ received w = Some rs /\
    forall limit, fits w limit -> exists r', parse_introspection_response rs limit = Some r' /\
      default [] (ir_extra r') = default [] (ir_extra r).
Proof.
  intros w0 r Hw Hk Ht. destruct (introspection_read _ w0 r Hw exact_json_number Hk Ht) as (w & rs & H1 & H2 & _ & H4).
  exists w, rs. split; [done|]. split; [done|]. intros limit Hl. rewrite (H4 limit Hl).
  rewrite (introspection_of_introspection_json _ r Ht).
  destruct Ht as (_ & _ & _ & _ & _ & _ & _ & _ & _ & _ & _ & Hx & _).
  destruct (stored_map_exact (ir_extra r) Hx) as (x & -> & Hs). eexists. split; [reflexivity|]. exact Hs.
Qed.
Lemma c71_range : forall w0 r s v, unsent w0 -> (ir_active r = true -> In (ir_token_type r) ["access_token"; "refresh_token"]) ->
  introspection_texts_with short_literal r -> number_in s (JObj (default [] (ir_extra r))) ->
  number s v -> ~ float_range v ->
  exists w rs, write_introspection_response w0 r = Some (w, true) /\ received w = Some rs /\
    forall limit, fits w limit -> parse_introspection_response rs limit = None.
Proof.
  intros w0 r s v Hw Hk Ht Hin Hv Hr.
  assert (Hl : short_literal s).
  { destruct Ht as (_ & _ & _ & _ & _ & _ & _ & _ & _ & _ & _ & Hx & _). exact (number_in_kind _ s _ Hx Hin). }
  destruct Hl as [_ Hl].
  destruct (introspection_read short_literal w0 r Hw (fun s H => proj1 H) Hk Ht) as (w & rs & H1 & H2 & _ & H4).
  exists w, rs. split; [done|]. split; [done|]. intros limit Hlim. rewrite (H4 limit Hlim).
  rewrite (introspection_of_introspection_json _ r Ht).
  destruct (parse_nearest s v Hv Hl) as [[H _]|[_ Hp]]; [done|]. by rewrite (map_refused s).
Qed.

Lemma c57_refused : forall w0 r, ir_active r = true -> ir_token_type r <> "access_token" -> ir_token_type r <> "refresh_token" ->
  write_introspection_response w0 r = Some (w0, false).
Proof.
  intros w0 r Ha H1 H2. unfold write_introspection_response, known_token_type, AccessToken, RefreshToken. rewrite Ha.
  apply seqb_false in H1, H2. by rewrite H1, H2.
Qed.

Lemma c62_roundtrip : forall w0 e, unsent w0 -> e_redirect_uri e = "" -> status_with_body (e_status e) -> error_texts e ->
  exists w rs, write_error w0 (GErr e) = Some (w, true) /\ received w = Some rs /\ rs_status rs = e_status e /\
    forall limit, fits w limit -> exists e', parse_request_error rs limit = GErr e' /\ same_error e e'.
Proof.
  intros w0 e Hw Hr Hc [Hu Hg]. unfold write_error, write_error_order. rewrite Hr. change (negb (seqb "" "")) with false. cbv iota.
  set (w1 := fold_left _ _ w0).
  assert (Hw1 : unsent w1).
  { unfold w1. destruct (set_headers_sent w0 (map_to_list (e_headers e))) as [H1 H2]. unfold set_headers in *.
    unfold unsent. rewrite H1, H2. exact Hw. }
  destruct (written_document w1 (error_json e) (e_status e) Hw1 Hc) as (w & Hwr & Hb & Hrec).
  eexists w, _. split; [done|]. split; [done|]. split; [done|]. intros limit Hl. unfold fits in Hl. rewrite Hb in Hl.
  unfold parse_request_error. rewrite read_all by done. cbn [rs_body].
  destruct (error_sendable e Hu) as [H1 H2]. rewrite json_roundtrip_nl by done.
  rewrite error_of_error_json. eexists. split; [reflexivity|].
  unfold same_error. cbn. rewrite read_scope_items by done. done.
Qed.
