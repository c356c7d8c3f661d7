(** What a client makes of the answer of any server (C79). *)
From Verif.Model Require Import GoStr Server Client.
From Verif.Spec Require Import ScopeSpec WireSpec RequestSpec FormSpec ClientSpec DocumentSpec.
From Verif.Proof Require Import StrFacts DecFacts JsonFacts WireFacts NumberFacts QuotedFacts JsonText CodecFacts CodecProofs CutProofs
  MediaProofs FormProofs DocumentFacts.
Import TextSpec.
From Coq Require Import ZifyBool ZifyNat ZifyN.

#[local] Open Scope string_scope.

(** ** Content types *)
Lemma json_typed_parse ct : json_typed ct -> parse_media_type ct = ("application/json", true).
Proof. apply content_type_spec. Qed.
Lemma not_json_typed_parse ct : ~ json_typed ct -> exists t ok, parse_media_type ct = (t, ok) /\ (ok = false \/ seqb t "application/json" = false).
Proof.
  intros H. destruct (parse_media_type ct) as [t ok] eqn:E. exists t, ok. split; [done|]. destruct ok; [|by left]. right.
  apply seqb_false. intros ->. apply H. by apply content_type_spec.
Qed.
Lemma json_typed_dec ct : json_typed ct \/ ~ json_typed ct.
Proof.
  unfold json_typed. rewrite <- content_type_spec. destruct (parse_media_type ct) as [t ok].
  destruct (seqb t "application/json") eqn:Et; [apply seqb_true in Et as ->; destruct ok; [by left|right; congruence]|].
  apply seqb_false in Et. right. congruence.
Qed.

(** ** Bodies *)
Lemma looked_at_read rs limit : looked_at rs limit (fst (read_limited rs limit)) /\
  (forall d, looked_at rs limit d -> d = fst (read_limited rs limit)) /\ (snd (read_limited rs limit) = false <-> broken_off rs limit).
Proof.
  unfold looked_at, broken_off, read_limited. destruct (Nat.leb_spec (Z.to_nat limit) (slen (rs_body rs))) as [H|H]; cbn [fst snd].
  - destruct (take_max_split (Z.to_nat limit) (rs_body rs)) as (q & Hq & Hl).
    assert (Hd : slen (take_max (Z.to_nat limit) (rs_body rs)) = Z.to_nat limit).
    { pose proof (f_equal slen Hq) as E. rewrite slen_app in E. lia. }
    split; [exists q; split; [done|right; lia]|]. split; [|split; [done|intros [_ ?]; lia]].
    intros d (r & E & Hr). assert (Hdl : slen d = Z.to_nat limit).
    { destruct Hr as [[-> Hr]|Hr]; [|lia]. rewrite app_nil_r_s in E. rewrite <- E in Hr. lia. }
    rewrite E, take_max_app by lia. symmetry. apply take_max_all. lia.
  - split; [exists ""; split; [by rewrite app_nil_r_s|left; split; [done|lia]]|]. split.
    + intros d (r & E & Hr). rewrite E. destruct Hr as [[-> _]|Hr]; [by rewrite app_nil_r_s|].
      pose proof (f_equal slen E) as El. rewrite slen_app in El. assert (slen r = 0) by lia. destruct r; [|done]. by rewrite app_nil_r_s.
    + split; [intros ->; split; [done|lia]|by intros [-> _]].
Qed.
Lemma body_says_parse rs limit j : body_says rs limit j <-> json_parse (fst (read_limited rs limit)) = Some j.
Proof.
  destruct (looked_at_read rs limit) as (H1 & H2 & _). rewrite json_parse_spec. split.
  - intros (d & Hd & Hj). apply H2 in Hd as ->. done.
  - intros Hj. by exists (fst (read_limited rs limit)).
Qed.
Lemma read_json_typed rs limit : json_typed (rs_ctype rs) ->
  read_json_body rs limit = if snd (read_limited rs limit) then Some (fst (read_limited rs limit)) else None.
Proof.
  intros H. unfold read_json_body. destruct (read_limited rs limit) as [d ok]. rewrite (json_typed_parse _ H). by destruct ok.
Qed.
Lemma read_not_json rs limit : ~ json_typed (rs_ctype rs) -> read_json_body rs limit = None.
Proof.
  intros H. unfold read_json_body. destruct (read_limited rs limit) as [d ok]. destruct ok; [|done].
  destruct (not_json_typed_parse _ H) as (t & ok & -> & [->|E]); [done|]. rewrite E. by destruct ok.
Qed.

(** ** Documents *)
Ltac plain_field := by (vm_compute; reflexivity).
Lemma token_members j o : members_are j o -> token_of_json j = token_of_json (JObj o).
Proof. intros [->|[-> ->]]; reflexivity. Qed.
Lemma introspection_members j o : members_are j o -> introspection_of_json j = introspection_of_json (JObj o).
Proof. intros [->|[-> ->]]; reflexivity. Qed.
Lemma error_members j o : members_are j o -> error_of_json j = error_of_json (JObj o).
Proof. intros [->|[-> ->]]; reflexivity. Qed.
Lemma members_fine j o : fine j -> members_are j o -> fine (JObj o).
Proof.
  intros H [->|[-> ->]]; [done|]. split; intros s Hs; inversion Hs; subst; done.
Qed.
Lemma members_numbers j o : numbers_ok j -> members_are j o -> numbers_ok (JObj o).
Proof. intros H [->|[-> ->]]; [done|]. intros s Hs; inversion Hs; subst; done. Qed.

Lemma token_document_spec j r : numbers_ok j -> token_of_json j = Some r <-> token_document j r.
Proof.
  intros Hj. assert (Hob : forall o, numbers_ok (JObj o) -> token_of_json (JObj o) = Some r <->
    text_field "token_type" o (tr_token_type r) /\ text_field "access_token" o (tr_access_token r) /\
    integer_field "expires_in" o (tr_expires_in r) /\ text_field "refresh_token" o (tr_refresh_token r) /\
    scope_field "scope" o (tr_scope r) /\ text_field "state" o (tr_state r) /\ tr_redirect_uri r = "").
  { intros o Ho. rewrite <- !text_field_spec, <- integer_field_spec, <- scope_field_spec by (done || plain_field). cbn [token_of_json].
    set (f1 := decode_field store_string "" "token_type" o). set (f2 := decode_field store_string "" "access_token" o).
    set (f3 := decode_field store_int 0%Z "expires_in" o). set (f4 := decode_field store_string "" "refresh_token" o).
    set (f5 := decode_field store_scope None "scope" o). set (f6 := decode_field store_string "" "state" o).
    clearbody f1 f2 f3 f4 f5 f6. split.
    - destruct f1, f2, f3, f4, f5, f6; try done. intros [= <-]. done.
    - intros (-> & -> & -> & -> & -> & -> & E). rewrite <- E. by destruct r. }
  unfold token_document. split.
  - intros H. assert (exists o, members_are j o) as [o Ho].
    { destruct j; try discriminate H; eexists; [right; by split|by left]. }
    exists o. split; [done|]. apply Hob; [by eapply members_numbers|]. by rewrite <- (token_members j o).
  - intros (o & Ho & H). rewrite (token_members j o) by done. apply Hob; [by eapply members_numbers|done].
Qed.
Lemma error_document_spec j st e : option_map (fun e => set_status e st) (error_of_json j) = Some e <-> error_document j st e.
Proof.
  assert (Hob : forall o, option_map (fun e => set_status e st) (error_of_json (JObj o)) = Some e <->
    text_field "error" o (e_name e) /\ text_field "state" o (e_state e) /\
    scope_field "scope" o (e_scope e) /\ text_field "realm" o (e_realm e) /\
    text_field "error_description" o (e_description e) /\ text_field "error_uri" o (e_uri e) /\
    e_status e = st /\ e_headers e = ∅ /\ e_redirect_uri e = "" /\ e_use_fragment e = false).
  { intros o. rewrite <- !text_field_spec, <- scope_field_spec by (done || plain_field). cbn [error_of_json].
    set (f1 := decode_field store_string "" "error" o). set (f2 := decode_field store_string "" "state" o).
    set (f3 := decode_field store_scope None "scope" o). set (f4 := decode_field store_string "" "realm" o).
    set (f5 := decode_field store_string "" "error_description" o). set (f6 := decode_field store_string "" "error_uri" o).
    clearbody f1 f2 f3 f4 f5 f6. split.
    - destruct f1, f2, f3, f4, f5, f6; try done. cbn [option_map]. intros [= <-]. done.
    - intros (-> & -> & -> & -> & -> & -> & E1 & E2 & E3 & E4). cbn [option_map]. unfold set_status. cbn. f_equal. destruct e; cbn in *. by subst. }
  unfold error_document. split.
  - intros H. assert (exists o, members_are j o) as [o Ho].
    { destruct j; try discriminate H; eexists; [right; by split|by left]. }
    exists o. split; [done|]. apply Hob. by rewrite <- (error_members j o).
  - intros (o & Ho & H). rewrite (error_members j o) by done. by apply Hob.
Qed.
Lemma introspection_document_spec j r : fine j -> introspection_of_json j = Some r <-> introspection_document j r.
Proof.
  intros Hj. assert (Hob : forall o, fine (JObj o) -> introspection_of_json (JObj o) = Some r <->
    truth_field "active" o (ir_active r) /\ scope_field "scope" o (ir_scope r) /\
    text_field "client_id" o (ir_client_id r) /\ text_field "username" o (ir_username r) /\
    text_field "token_type" o (ir_token_type r) /\ integer_field "exp" o (ir_expires_at r) /\
    integer_field "iat" o (ir_issued_at r) /\ integer_field "nbf" o (ir_not_before r) /\
    text_field "sub" o (ir_subject r) /\ text_field "aud" o (ir_audience r) /\ text_field "iss" o (ir_issuer r) /\
    text_field "jti" o (ir_identifier r) /\ map_field "extra" o (ir_extra r)).
  { intros o Ho. pose proof (proj1 Ho) as Hn.
    rewrite <- !text_field_spec, <- !integer_field_spec, <- scope_field_spec, <- truth_field_spec, <- map_field_spec by (done || plain_field). cbn [introspection_of_json].
    set (f1 := decode_field store_bool false "active" o). set (f2 := decode_field store_scope None "scope" o).
    set (f3 := decode_field store_string "" "client_id" o). set (f4 := decode_field store_string "" "username" o).
    set (f5 := decode_field store_string "" "token_type" o). set (f6 := decode_field store_int 0%Z "exp" o).
    set (f7 := decode_field store_int 0%Z "iat" o). set (f8 := decode_field store_int 0%Z "nbf" o).
    set (f9 := decode_field store_string "" "sub" o). set (f10 := decode_field store_string "" "aud" o).
    set (f11 := decode_field store_string "" "iss" o). set (f12 := decode_field store_string "" "jti" o).
    set (f13 := decode_field store_map None "extra" o).
    clearbody f1 f2 f3 f4 f5 f6 f7 f8 f9 f10 f11 f12 f13. split.
    - destruct f1; [|done]. destruct f2; [|done]. destruct f3; [|done]. destruct f4; [|done]. destruct f5; [|done]. destruct f6; [|done].
      destruct f7; [|done]. destruct f8; [|done]. destruct f9; [|done]. destruct f10; [|done]. destruct f11; [|done]. destruct f12; [|done].
      destruct f13; [|done]. intros [= <-]. done.
    - intros (-> & -> & -> & -> & -> & -> & -> & -> & -> & -> & -> & -> & ->). by destruct r. }
  unfold introspection_document. split.
  - intros H. assert (exists o, members_are j o) as [o Ho].
    { destruct j; try discriminate H; eexists; [right; by split|by left]. }
    exists o. split; [done|]. apply Hob; [by eapply members_fine|]. by rewrite <- (introspection_members j o).
  - intros (o & Ho & H). rewrite (introspection_members j o) by done. apply Hob; [by eapply members_fine|done].
Qed.

(** ** Answers *)
Lemma answer_spec {A} (of_json : json -> option A) (document : json -> A -> Prop) rs limit r :
  (forall j, body_says rs limit j -> of_json j = Some r <-> document j r) ->
  match read_json_body rs limit with
  | None => None
  | Some data => match json_parse data with Some j => of_json j | None => None end
  end = Some r <->
  json_typed (rs_ctype rs) /\ ~ broken_off rs limit /\ exists j, body_says rs limit j /\ document j r.
Proof.
  intros Hdoc. destruct (json_typed_dec (rs_ctype rs)) as [Ht|Ht].
  - rewrite read_json_typed by done. destruct (looked_at_read rs limit) as (_ & _ & Hb). destruct (snd (read_limited rs limit)) eqn:Es.
    + assert (Hnb : ~ broken_off rs limit) by (rewrite <- Hb; done). split.
      * destruct (json_parse (fst (read_limited rs limit))) as [j|] eqn:Ej; [|done]. intros H. apply body_says_parse in Ej.
        split; [done|]. split; [done|]. exists j. split; [done|]. by apply Hdoc.
      * intros (_ & _ & j & Hj & H). pose proof Hj as Hj'. apply body_says_parse in Hj' as ->. by apply Hdoc.
    + split; [done|]. intros (_ & H & _). exfalso. by apply H, Hb.
  - rewrite read_not_json by done. split; [done|]. by intros (H & _).
Qed.
Lemma body_numbers rs limit j : body_says rs limit j -> numbers_ok j.
Proof. intros H. apply body_says_parse in H. by eapply parsed_numbers. Qed.

Lemma c79_json s j : json_parse s = Some j <-> json_text s j /\ (levels j <= 10000)%N.
Proof. apply json_parse_spec. Qed.
Lemma c79_one_meaning s j j' : json_text s j -> json_text s j' -> j = j'.
Proof.
  intros (w1 & t & w2 & E & H1 & H2 & Ht) (w1' & t' & w2' & E' & H1' & H2' & Ht').
  set (d := N.max (levels j) (levels j')). assert (A : parse_value (slen s) d s = Some (j, w2)).
  { rewrite E at 2. rewrite parse_value_white by done. apply (proj1 says_parsed _ _ Ht); [rewrite E, !slen_app; lia|subst d; lia|by apply white_end]. }
  assert (A' : parse_value (slen s) d s = Some (j', w2')).
  { rewrite E' at 2. rewrite parse_value_white by done. apply (proj1 says_parsed _ _ Ht'); [rewrite E', !slen_app; lia|subst d; lia|by apply white_end]. }
  congruence.
Qed.
Lemma c79_token rs limit r : parse_token_response rs limit = Some r <-> token_answer rs limit r.
Proof.
  unfold parse_token_response, token_answer. apply answer_spec. intros j Hj. apply token_document_spec. by eapply body_numbers.
Qed.
Lemma c79_introspection rs limit r : (forall j, body_says rs limit j -> short_numbers j) ->
  parse_introspection_response rs limit = Some r <-> introspection_answer rs limit r.
Proof.
  intros Hs. unfold parse_introspection_response, introspection_answer. apply answer_spec. intros j Hj. apply introspection_document_spec.
  split; [by eapply body_numbers|by apply Hs].
Qed.
(** A number is no longer than the text it stands in. *)
Definition within (n : nat) (j : json) : Prop := forall x, number_in x j -> slen x <= n.
Lemma within_more n m j : within n j -> n <= m -> within m j.
Proof. intros H Hle x Hx. apply H in Hx. lia. Qed.
Lemma says_within :
  (forall s j, says s j -> within (slen s) j) /\ (forall s l, says_list s l -> List.Forall (within (slen s)) l) /\
  (forall s l, says_table s l -> List.Forall (fun kv => within (slen s) (snd kv)) l).
Proof.
  assert (Hm : forall n m l, List.Forall (within n) l -> n <= m -> List.Forall (within m) l).
  { intros n m l H Hle. eapply List.Forall_impl; [|exact H]. intros j Hj. exact (within_more _ _ _ Hj Hle). }
  assert (Ht : forall n m (l : list (string * json)), List.Forall (fun kv => within n (snd kv)) l -> n <= m ->
    List.Forall (fun kv => within m (snd kv)) l).
  { intros n m l H Hle. eapply List.Forall_impl; [|exact H]. intros j Hj. exact (within_more _ _ _ Hj Hle). }
  apply says_mutind.
  - intros x H. inversion H.
  - intros x H. inversion H.
  - intros x H. inversion H.
  - intros s Hs x H. by inversion H; subst.
  - intros s l _ x H. inversion H.
  - intros w _ x H. inversion H; subst. done.
  - intros s l _ HF x H. inversion H as [|l' j Hin Hn|]; subst. rewrite List.Forall_forall in HF. specialize (HF j Hin x Hn).
    rewrite !slen_app. lia.
  - intros w _ x H. inversion H; subst. done.
  - intros s l _ HF x H. inversion H as [| |l' k j Hin Hn]; subst. rewrite List.Forall_forall in HF. specialize (HF (k, j) Hin x Hn).
    rewrite !slen_app. lia.
  - intros w1 s w2 j _ _ _ H. constructor; [|constructor]. eapply within_more; [exact H|]. rewrite !slen_app. lia.
  - intros w1 s w2 j t l _ _ _ H _ HF. constructor.
    + eapply within_more; [exact H|]. rewrite !slen_app. lia.
    + eapply Hm; [exact HF|]. rewrite !slen_app. lia.
  - intros w1 k q w2 w3 s w4 j _ _ _ _ _ _ H. constructor; [|constructor]. cbn [snd]. eapply within_more; [exact H|].
    rewrite !slen_app. cbn [String.length]. rewrite !slen_app. cbn [String.length]. rewrite !slen_app. lia.
  - intros w1 k q w2 w3 s w4 j t l _ _ _ _ _ _ H _ HF. constructor.
    + cbn [snd]. eapply within_more; [exact H|].
      rewrite !slen_app. cbn [String.length]. rewrite !slen_app. cbn [String.length]. rewrite !slen_app. lia.
    + eapply Ht; [exact HF|].
      rewrite !slen_app. cbn [String.length]. rewrite !slen_app. cbn [String.length]. rewrite !slen_app. lia.
Qed.
Lemma limited_short rs limit j : (limit <= 9000)%Z -> body_says rs limit j -> short_numbers j.
Proof.
  intros Hl (data & (rest & _ & Hd) & (w1 & t & w2 & -> & _ & _ & Ht) & _) x Hx. apply (proj1 says_within) in Ht.
  apply Ht in Hx. rewrite !slen_app in Hd. lia.
Qed.
Lemma c79_introspection_limited rs limit r : (limit <= 9000)%Z ->
  parse_introspection_response rs limit = Some r <-> introspection_answer rs limit r.
Proof. intros Hl. apply c79_introspection. intros j. by apply limited_short. Qed.
Lemma c79_error rs limit err : parse_request_error rs limit = err <-> refusal rs limit err.
Proof.
  assert (Hsome : forall e, error_answer rs limit e <-> parse_request_error rs limit = GErr e).
  { intros e. unfold error_answer, parse_request_error.
    pose proof (body_says_parse rs limit) as Hb. destruct (read_limited rs limit) as [d ok]. cbn [fst] in Hb. split.
    - intros (j & Hj & He). apply Hb in Hj as ->. apply error_document_spec in He. destruct (error_of_json j) as [e'|]; [|done]. cbn [option_map] in He. congruence.
    - destruct (json_parse d) as [j|]; [|done]. destruct (error_of_json j) as [e'|] eqn:Ee; [|done]. intros [= <-]. exists j.
      split; [by apply Hb|]. apply error_document_spec. by rewrite Ee. }
  unfold refusal. split.
  - intros H. destruct err as [e|]; [left; exists e; split; [by apply Hsome|done]|]. right. split; [|done]. intros e He. apply Hsome in He. congruence.
  - intros [(e & He & ->)|[Hno ->]]; [by apply Hsome|]. destruct (parse_request_error rs limit) as [e|] eqn:E; [|done]. exfalso. by apply (Hno e), Hsome.
Qed.
Lemma outcome_spec {A} (parse : response -> Z -> option A) (answer : response -> Z -> A -> Prop) rs limit o :
  (forall a, parse rs limit = Some a <-> answer rs limit a) ->
  (if negb (rs_status rs =? 200)%Z then inr (parse_request_error rs limit)
   else match parse rs limit with Some r => inl r | None => inr GOther end) = o <-> outcome answer rs limit o.
Proof.
  intros H. unfold outcome. destruct (Z.eqb_spec (rs_status rs) 200) as [E|E]; cbn [negb].
  - split.
    + intros <-. left. split; [done|]. destruct (parse rs limit) as [a|] eqn:Ep.
      * left. exists a. split; [by apply H|done].
      * right. split; [|done]. intros a Ha. apply H in Ha. congruence.
    + intros [[_ [(a & Ha & ->)|[Hno ->]]]|[? _]]; [|..|done].
      * apply H in Ha. by rewrite Ha.
      * destruct (parse rs limit) as [a|] eqn:Ep; [|done]. exfalso. apply (Hno a). by apply H.
  - split.
    + intros <-. right. split; [done|]. eexists. split; [by apply c79_error|done].
    + intros [[? _]|[_ (err & He & ->)]]; [done|]. apply c79_error in He. by rewrite He.
Qed.
Lemma c79_authenticate c do q req rs o : build_token_request (cc_base_uri c +:+ cc_token_endpoint c) q = Some req -> do req = Some rs ->
  client_authenticate c do q = o <-> outcome token_answer rs (cc_response_limit c) o.
Proof.
  intros Hb Hd. unfold client_authenticate. rewrite Hb, Hd. apply outcome_spec. intros a. by apply c79_token.
Qed.
Lemma c79_introspect c do q req rs o : build_introspection_request (cc_base_uri c +:+ cc_introspection_endpoint c) q = Some req -> do req = Some rs ->
  (forall j, body_says rs (cc_response_limit c) j -> short_numbers j) ->
  client_introspect c do q = o <-> outcome introspection_answer rs (cc_response_limit c) o.
Proof.
  intros Hb Hd Hs. unfold client_introspect. rewrite Hb, Hd. apply outcome_spec. intros a. by apply c79_introspection.
Qed.
Lemma c79_introspect_limited c do q req rs o : build_introspection_request (cc_base_uri c +:+ cc_introspection_endpoint c) q = Some req ->
  do req = Some rs -> (cc_response_limit c <= 9000)%Z ->
  client_introspect c do q = o <-> outcome introspection_answer rs (cc_response_limit c) o.
Proof. intros Hb Hd Hl. eapply c79_introspect; [exact Hb|exact Hd|]. intros j. by apply limited_short. Qed.
Lemma c79_revoke c do q req rs : build_revocation_request (cc_base_uri c +:+ cc_revocation_endpoint c) q = Some req -> do req = Some rs ->
  (client_revoke c do q = None <-> rs_status rs = 200%Z) /\
  forall err, client_revoke c do q = Some err <-> rs_status rs <> 200%Z /\ refusal rs (cc_response_limit c) err.
Proof.
  intros Hb Hd. unfold client_revoke. rewrite Hb, Hd. destruct (Z.eqb_spec (rs_status rs) 200) as [E|E]; cbn [negb].
  - split; [done|]. intros err. split; [done|by intros [? _]].
  - split; [done|]. intros err. rewrite <- c79_error. split; [by intros [= <-]|by intros [_ ->]].
Qed.

(** ** Scopes (C10) *)
Lemma c10_exact : forall old text sc ok, scope_unmarshal old text = (sc, ok) <->
  (ok = true /\ ((exists v, json_text text (JStr v) /\ sc = parse_scope v) \/ (json_text text JNull /\ sc = None))) \/
  (ok = false /\ sc = old /\ (forall v, ~ json_text text (JStr v)) /\ ~ json_text text JNull).
Proof.
  intros old text sc ok. unfold scope_unmarshal.
  assert (HS : forall v, json_text text (JStr v) -> json_parse text = Some (JStr v)) by (intros v H; apply json_parse_spec; split; [done|cbn; lia]).
  assert (HN : json_text text JNull -> json_parse text = Some JNull) by (intros H; apply json_parse_spec; split; [done|cbn; lia]).
  destruct (json_parse text) as [j|] eqn:E.
  2:{ split; [intros [= <- <-]; right; split; [done|]; split; [done|]; split; [by intros v H%HS|by intros H%HN]|].
      intros [(-> & [(v & H & _)|(H & _)])|(-> & -> & _)]; [by apply HS in H|by apply HN in H|done]. }
  apply json_parse_spec in E as [Hj _].
  assert (Hrest : forall j', j = j' -> (forall v, j' <> JStr v) -> j' <> JNull ->
    ((old, false) = (sc, ok) <-> (ok = true /\ ((exists v, json_text text (JStr v) /\ sc = parse_scope v) \/ (json_text text JNull /\ sc = None))) \/
     (ok = false /\ sc = old /\ (forall v, ~ json_text text (JStr v)) /\ ~ json_text text JNull))).
  { intros j' <- H1 H2. split.
    - intros [= <- <-]. right. split; [done|]. split; [done|]. split; [intros v H%HS|intros H%HN]; congruence.
    - intros [(-> & [(v & H & _)|(H & _)])|(-> & -> & _)]; [apply HS in H; congruence|apply HN in H; congruence|done]. }
  destruct j as [| | | s | |]; cbn [store_scope]; try (eapply Hrest; done).
  - split; [intros [= <- <-]; left; split; [done|]; by right|].
    intros [(-> & [(v & H & _)|(_ & ->)])|(_ & _ & _ & H)]; [apply HS in H; congruence|done|done].
  - split; [intros [= <- <-]; left; split; [done|]; left; by exists s|].
    intros [(-> & [(v & H & ->)|(H & ->)])|(_ & _ & H & _)]; [apply HS in H; congruence|apply HN in H; congruence|by destruct (H s)].
Qed.
