(** Facts about the requests of the tests and the helpers that read responses. *)
From Verif.Model Require Import Client Suite.
From Verif.Spec Require Import TokenSpec ScopeSpec WireSpec RequestSpec ServerSpec NumberSpec SuiteSpec.
From Verif.Proof Require Import StrFacts Base64Facts HsFacts TokenProofs UrlFacts UrlParse DecFacts JsonFacts NumberProofs IntegerProofs CodecFacts CodecProofs
  ScopeFacts ScopeProofs WireFacts WireProofs Redirect ServerFacts Steps RequestProofs RequestParse ServerProofs GrantProofs.

Lemma ne_seqb s t : s <> t -> seqb s t = false.
Proof. apply seqb_false. Qed.
Lemma seqb_same s : seqb s s = true.
Proof. by apply seqb_true. Qed.

(** ** Requests *)
Definition singles (form : gmap string string) : values := (fun v => [v]) <$> form.

Lemma vget_singles form k : vget (singles form) k = default "" (form !! k).
Proof.
  unfold vget, singles. unfold values in *. rewrite lookup_fmap. by destruct (form !! k).
Qed.

Lemma merge_empty (v : values) : merge_values v ∅ = v.
Proof. unfold merge_values. unfold values in *. by rewrite (right_id_L ∅ (union_with _)). Qed.

Lemma preset_forms r form : rq_query r = "" -> rq_preset r = Some (singles form) ->
  parse_form r = Some {| f_post := singles form; f_form := singles form |}.
Proof.
  intros Hq Hp. unfold parse_form. rewrite Hp, Hq. change (parse_query "") with ((∅ : values), true).
  cbn [andb]. by rewrite merge_empty.
Qed.

(** A request with a given Authorization header and form. *)
Definition treq (m path auth ct : string) (form : gmap string string) : request :=
  {| rq_method := m; rq_path := path; rq_query := ""; rq_auth := auth; rq_ctype := ct;
     rq_body := None; rq_preset := Some (singles form) |}.

Lemma treq_form m path auth ct form :
  parse_form (treq m path auth ct form) = Some {| f_post := singles form; f_form := singles form |}.
Proof. by apply preset_forms. Qed.

Lemma do_request_plain m path u hdr form : valid_method m = true -> m <> "" ->
  url_parse path = Some u -> u_rawquery u = "" ->
  exists ct, do_request {| sr_method := m; sr_path := path; sr_header := hdr; sr_form := form;
                sr_username := ""; sr_password := "" |}
     = Some (treq m (u_path u) (header_of (map_to_list hdr) "Authorization") ct form).
Proof.
  intros Hv Hm Hu Hq. eexists. unfold do_request. cbn [sr_method sr_path sr_header sr_form sr_username sr_password].
  rewrite Hv, Hu. cbn [negb]. rewrite (ne_seqb m "") by done. rewrite Hq. reflexivity.
Qed.

Lemma do_request_basic m path u hdr form user password : valid_method m = true -> m <> "" ->
  url_parse path = Some u -> u_rawquery u = "" -> user <> "" ->
  exists ct, do_request {| sr_method := m; sr_path := path; sr_header := hdr; sr_form := form;
                sr_username := user; sr_password := password |}
     = Some (treq m (u_path u) (basic_auth_header user password) ct form).
Proof.
  intros Hv Hm Hu Hq Hne. eexists. unfold do_request. cbn [sr_method sr_path sr_header sr_form sr_username sr_password].
  rewrite Hv, Hu. cbn [negb]. rewrite (ne_seqb m "") by done. rewrite (ne_seqb user "") by done. rewrite Hq. reflexivity.
Qed.

Lemma treq_basic m path user password ct form : without ":" user ->
  basic_auth (treq m path (basic_auth_header user password) ct form) = Some (user, password).
Proof.
  intros Hw. unfold basic_auth. cbn [rq_auth treq]. destruct (basic_header_parse user password Hw) as [-> ->]. done.
Qed.

Lemma treq_nobasic m path ct form : basic_auth (treq m path "" ct form) = None.
Proof. reflexivity. Qed.

(** ** Documents *)
Lemma member_value_nomatch field o acc : (forall k v, In (k, v) o -> k <> field) ->
  fold_left (fun acc (kv : string * json) => if seqb (fst kv) field then Some (snd kv) else acc) o acc = acc.
Proof.
  revert acc. induction o as [|[k v] o IH]; intros acc H; [done|]. cbn [fold_left fst snd].
  rewrite ne_seqb by (apply (H k v); by left). apply IH. intros k' v' Hin. apply (H k' v'). by right.
Qed.

Lemma json_document w j : rw_body w = json_encode j -> json_ok j -> (jdepth j <= max_depth)%N ->
  parse_value (S (slen (rw_body w))) max_depth (rw_body w) = Some (j, str1 "010").
Proof.
  intros -> Hok Hd. unfold json_encode. rewrite (render_value_ok j Hok); [done| |done|done].
  rewrite slen_app. lia.
Qed.

(** A member as it is stored. *)
Definition held (v : json) : json := default v (any_of_json v).
Lemma any_members_held o : Forall (fun kv => any_of_json (snd kv) <> None) o ->
  any_members o = Some (map (fun kv => (fst kv, held (snd kv))) o).
Proof.
  unfold any_members. induction 1 as [|[k v] o Hv _ IH]; [done|]. cbn [map all_some fst snd] in *. unfold held.
  destruct (any_of_json v) as [v'|]; [|done]. cbn [option_map]. by rewrite IH.
Qed.
Lemma member_value_held field o : member_value field (map (fun kv => (fst kv, held (snd kv))) o) = option_map held (member_value field o).
Proof.
  unfold member_value. change None with (option_map held None) at 1. generalize (@None json).
  induction o as [|[k v] o IH]; intros acc; [done|]. cbn [map fold_left fst snd]. rewrite <- IH. by destruct (seqb k field).
Qed.
Lemma json_field_obj w o field : rw_body w = json_encode (JObj o) -> json_ok (JObj o) ->
  (jdepth (JObj o) <= max_depth)%N -> Forall (fun kv => any_of_json (snd kv) <> None) o ->
  json_field w field = option_map held (member_value field o).
Proof.
  intros Hb Hok Hd HF. unfold json_field. rewrite (json_document w (JObj o) Hb Hok Hd), any_members_held by done.
  apply member_value_held.
Qed.

(** The errors with closed texts. *)
Definition error_answer (e : error) (w : rw) : Prop :=
  rec_code w = e_status e /\ json_field_string w "error" = e_name e.

Lemma error_answer_plain e : plain_error e ->
  exists w, write_outcome new_rw (OError e) = Some w /\ error_answer e w /\
    (e_name e = "invalid_client" -> auth_param w "realm" = Some "OAuth2").
Proof.
  intros He. pose proof (plain_error_shape e He) as (Hr & Hst & Hsc & Hre & Hu & Huf & Hx).
  assert (Hutf : error_fields_utf8 e).
  { destruct He as (d & Hd & He). 
    assert (Hd' : valid_utf8 d) by (apply ascii_utf8; exact Hd).
    assert (Hemp : valid_utf8 "") by (apply ascii_utf8; reflexivity).
    unfold error_fields_utf8. repeat destruct He as [He|He]; subst e;
      (split; [apply ascii_utf8; reflexivity|]); (split; [exact Hemp|]); (split; [constructor|]);
      (split; [exact Hemp|]); (split; [exact Hd'|]); exact Hemp. }
  assert (Hstat : status_with_body (e_status e)) by (unfold status_with_body; destruct Hx as [(_&->&_)|([->| ->]&_)]; lia).
  assert (Hv : valid_status (e_status e)) by (unfold valid_status, status_with_body in *; lia).
  cbn [write_outcome]. unfold write_error, write_error_order. rewrite Hr. cbn [seqb negb String.eqb].
  change (seqb "" "") with true. cbn [negb].
  set (w0 := fold_left _ _ new_rw).
  assert (Hw0 : rw_sent w0 = None /\ rw_body w0 = "").
  { destruct (set_headers_sent new_rw (map_to_list (e_headers e))) as [Ha Hb]. split; [exact Ha|exact Hb]. }
  destruct Hw0 as [Hs0 Hb0].
  rewrite (write_fresh w0 (error_json e) (e_status e) Hs0 Hv).
  rewrite (proj2 (body_allowed_spec _ Hv) Hstat). cbn [option_map fst]. eexists. split; [reflexivity|].
  destruct (error_json_ok e Hutf) as [Hok Hdep].
  split.
  - split; [reflexivity|]. unfold json_field_string.
    rewrite (json_field_obj _ (error_members e)); [|cbn [rw_body]; by rewrite Hb0|exact Hok|exact Hdep|].
    2:{ unfold error_members. rewrite Hst, Hsc, Hre, Hu. rewrite !Forall_app. split_and!; try (apply omit_string_forall; intros _; discriminate); try (by constructor). }
    unfold member_value, error_members. rewrite fold_left_app. cbn [fold_left fst snd].
    change (seqb "error" "error") with true. cbv beta iota.
    rewrite member_value_nomatch; [done|].
    intros k v Hin. rewrite Hst, Hsc, Hre, Hu in Hin. cbn in Hin. unfold omit_string in Hin.
    destruct (seqb (e_description e) ""); cbn in Hin; [done|]. destruct Hin as [[= <- _]|[]]. discriminate.
  - intros Hn. destruct Hx as [(_ & _ & Hh)|(_ & _ & Hx)]; [|done].
    unfold auth_param, rec_header. cbn [rw_header].
    assert (Hl : rw_header (json_headers w0) !! canonical_key "WWW-Authenticate" = Some [basic_challenge]).
    { unfold w0. rewrite Hh, map_to_list_singleton. vm_compute. reflexivity. }
    rewrite Hl. vm_compute. reflexivity.
Qed.

(** ** Numbers *)
Lemma int_held z : int64 z -> any_of_json (JNum (itoa z)) <> None.
Proof. intros Hz. destruct (int_float z Hz) as (f & Hf & _). cbn. by rewrite Hf. Qed.
Lemma int_field z : int64 z ->
  match match Some (held (JNum (itoa z))) with Some (JNum lit) => parse_float lit | _ => float_of_int 0 end, float_of_int z with
  | Some f, Some g => float_eqb f g
  | _, _ => false
  end = true.
Proof.
  intros Hz. destruct (int_float z Hz) as (f & Hf & Hi & Hok). unfold held. cbn [any_of_json]. rewrite Hf. cbn [option_map default].
  unfold default, id. destruct (format_read f Hok) as [_ ->]. rewrite Hi. unfold float_eqb. by rewrite !Z.eqb_refl, eqb_reflx.
Qed.

(** ** Token and introspection documents *)
Definition token_answer (r : token_response) (w : rw) : Prop :=
  rec_code w = 200%Z /\ json_field_string w "token_type" = tr_token_type r /\
  json_field_string w "scope" = scope_string (tr_scope r) /\
  json_field_is w "expires_in" (tr_expires_in r) = true /\
  json_field_string w "access_token" = tr_access_token r /\
  json_field_string w "refresh_token" = tr_refresh_token r.

Lemma token_answer_written r : tr_redirect_uri r = "" -> tr_state r = "" ->
  valid_utf8 (tr_token_type r) -> valid_utf8 (tr_access_token r) -> valid_utf8 (tr_refresh_token r) ->
  items (tr_scope r) <> [] -> Forall valid_utf8 (items (tr_scope r)) -> int64 (tr_expires_in r) ->
  exists w, write_outcome new_rw (OToken r) = Some w /\ token_answer r w.
Proof.
  intros Hr Hs Ht Ha Hf Hne Hsc Hint. cbn [write_outcome]. unfold write_token_response. rewrite Hr.
  change (negb (seqb "" "")) with false. cbv iota.
  destruct (written_document new_rw (token_json r) 200) as (w & Hw & Hb & Hrec); [by split|unfold status_with_body; lia|].
  rewrite Hw. cbn [option_map fst]. exists w. split; [done|].
  assert (Hok : sendable (token_json r)).
  { apply sendable_obj. rewrite !Forall_app. split_and!.
    - repeat constructor; cbn [fst snd]; try (by apply ascii_utf8); try done. all: apply num_ok_itoa.
    - apply omit_string_forall. intros _. split; [split; [by apply ascii_utf8|done]|done].
    - apply omit_scope_forall. apply sendable_scope; [by apply ascii_utf8|done].
    - rewrite Hs. constructor. }
  destruct Hok as [Hok Hd]. unfold token_json in *.
  assert (Hf' : forall field, json_field w field = option_map held (member_value field
     ([("token_type", JStr (tr_token_type r)); ("access_token", JStr (tr_access_token r));
       ("expires_in", JNum (itoa (tr_expires_in r)))] ++ omit_string "refresh_token" (tr_refresh_token r)
       ++ [("scope", JStr (scope_string (tr_scope r)))]))).
  { intros field. rewrite (json_field_obj w _ field Hb Hok Hd).
    2:{ rewrite !Forall_app. split_and!.
        - repeat constructor; cbn [snd]; try discriminate. by apply int_held.
        - apply omit_string_forall. intros _. discriminate.
        - apply omit_scope_forall. discriminate.
        - apply omit_string_forall. intros _. discriminate. }
    rewrite Hs. unfold omit_string at 2.
    change (seqb "" "") with true. cbv iota. rewrite app_nil_r. unfold omit_scope.
    destruct (scope_empty (tr_scope r)) eqn:E; [|done]. apply scope_empty_items in E. done. }
  assert (Hcode : rec_code w = 200%Z).
  { unfold received in Hrec. unfold rec_code. destruct (rw_sent w) as [[c h]|]; [|done]. by injection Hrec as -> _. }
  split; [exact Hcode|].
  unfold json_field_string, json_field_is. rewrite !Hf'. unfold omit_string.
  destruct (seqb (tr_refresh_token r) "") eqn:Er; cbn [app member_value fold_left fst snd].
  - apply seqb_true in Er. rewrite Er.
    repeat match goal with |- context [seqb ?a ?b] => let v := eval vm_compute in (seqb a b) in progress change (seqb a b) with v end.
    cbv iota. cbn [option_map]. rewrite int_field by done. done.
  - repeat match goal with |- context [seqb ?a ?b] => let v := eval vm_compute in (seqb a b) in progress change (seqb a b) with v end.
    cbv iota. cbn [option_map]. rewrite int_field by done. done.
Qed.

Definition intro_answer (i : introspection_response) (w : rw) : Prop :=
  rec_code w = 200%Z /\ json_field_bool w "active" = ir_active i /\
  json_field_string w "token_type" = ir_token_type i.

Lemma intro_answer_active c kind : readable c -> valid_utf8 (cd_client_id c) ->
  (kind = "access_token" \/ kind = "refresh_token") ->
  exists w, write_outcome new_rw (OIntro (describe c kind)) = Some w /\ intro_answer (describe c kind) w.
Proof.
  intros (Hu & Hsc & Hint) Hid Hk. cbn [write_outcome]. unfold write_introspection_response.
  assert ((ir_active (describe c kind) && negb (known_token_type (ir_token_type (describe c kind)))) = false) as ->.
  { destruct Hk as [-> | ->]; reflexivity. }
  destruct (written_document new_rw (introspection_json (describe c kind)) 200) as (w & Hw & Hb & Hrec); [by split|unfold status_with_body; lia|].
  rewrite Hw. cbn [option_map fst]. exists w. split; [done|].
  assert (Hcode : rec_code w = 200%Z).
  { unfold received in Hrec. unfold rec_code. destruct (rw_sent w) as [[c' h]|]; [|done]. by injection Hrec as -> _. }
  split; [exact Hcode|].
  assert (Hkv : valid_utf8 kind) by (destruct Hk as [-> | ->]; by apply ascii_utf8).
  assert (Hok : sendable (introspection_json (describe c kind))).
  { apply sendable_obj. unfold describe. cbn [ir_active ir_scope ir_client_id ir_username ir_token_type ir_expires_at ir_issued_at ir_not_before ir_subject ir_audience ir_issuer ir_identifier ir_extra].
    rewrite !Forall_app. split_and!; try (apply omit_string_forall; intros _; split; [split; [by apply ascii_utf8|done]|done]);
    try (apply omit_int_forall; split; [split; [by apply ascii_utf8|apply num_ok_itoa]|done]).
    - repeat constructor. by apply ascii_utf8.
    - apply omit_scope_forall. apply sendable_scope; [by apply ascii_utf8|done].
    - apply omit_string_forall. intros []. done.
    - apply omit_string_forall. intros []. done.
    - apply omit_string_forall. intros []. done.
    - apply omit_string_forall. intros []. done.
    - constructor. }
  destruct Hok as [Hok Hd]. unfold introspection_json in *.
  assert (Hnk : forall (l : list (string * json)) acc field, Forall (fun kv => fst kv <> field) l ->
    fold_left (fun acc (kv : string * json) => if seqb (fst kv) field then Some (snd kv) else acc) l acc = acc).
  { intros l acc field HF. apply member_value_nomatch. intros k v Hin. rewrite List.Forall_forall in HF. apply (HF _ Hin). }
  assert (Hrest : forall field, field = "active" \/ field = "token_type" -> json_field w field =
     if seqb field "active" then Some (JBool true) else Some (JStr kind)).
  { intros field Hfield. rewrite (json_field_obj w _ field Hb Hok Hd).
    2:{ unfold describe. cbn [ir_active ir_scope ir_client_id ir_username ir_token_type ir_expires_at ir_issued_at ir_not_before ir_subject ir_audience ir_issuer ir_identifier ir_extra].
        rewrite !Forall_app. split_and!; try (apply omit_string_forall; intros _; discriminate);
          try (apply omit_int_forall; cbn [snd]; first [exact (int_held _ Hint)|by apply int_held]).
        - repeat constructor. discriminate.
        - apply omit_scope_forall. discriminate.
        - constructor. }
    unfold member_value.
    unfold describe. cbn [ir_active ir_scope ir_client_id ir_username ir_token_type ir_expires_at ir_issued_at ir_not_before ir_subject ir_audience ir_issuer ir_identifier ir_extra].
    rewrite !fold_left_app.
    assert (Hkk : omit_string "token_type" kind = [("token_type", JStr kind)]) by (destruct Hk as [-> | ->]; reflexivity).
    rewrite Hkk. cbn [omit_map fold_left].
    destruct Hfield as [-> | ->];
    repeat (rewrite (Hnk (omit_string _ _)) by (apply omit_string_forall; intros _; cbn [fst]; discriminate));
    repeat (rewrite (Hnk (omit_int _ _)) by (apply omit_int_forall; cbn [fst]; discriminate));
    repeat (rewrite (Hnk (omit_scope _ _)) by (apply omit_scope_forall; cbn [fst]; discriminate));
    cbn [fold_left fst snd]; reflexivity. }
  unfold json_field_bool, json_field_string.
  rewrite (Hrest "active") by tauto. rewrite (Hrest "token_type") by tauto. done.
Qed.

Lemma intro_answer_inactive :
  exists w, write_outcome new_rw (OIntro (new_introspection_response false None "" "" "")) = Some w /\
    rec_code w = 200%Z /\ json_field_bool w "active" = false.
Proof. eexists. split; [vm_compute; reflexivity|]. split; vm_compute; reflexivity. Qed.

Lemma revoke_written : exists w, write_outcome new_rw ORevoked = Some w /\ rec_code w = 200%Z.
Proof. eexists. split; [vm_compute; reflexivity|]. reflexivity. Qed.

(** ** Challenges *)
Definition bearer_answer (e : error) (w : rw) : Prop :=
  rec_code w = e_status e /\ rw_body w = "" /\
  auth_param w "error" = Some (e_name e).

Lemma bearer_closed e : In e [malformed_header; InvalidToken "malformed token"; InvalidToken "unknown token";
    InvalidToken "expired token"] ->
  exists w, write_bearer_error new_rw (GErr e) = Some (w, true) /\ bearer_answer e w.
Proof.
  intros Hin. repeat destruct Hin as [<-|Hin]; [| | | |destruct Hin];
  (eexists; split; [vm_compute; reflexivity|]; split; [|split]; vm_compute; reflexivity).
Qed.

Lemma bearer_missing : exists w, write_bearer_error new_rw (GErr ProtectedResource) = Some (w, true) /\
  rec_code w = 401%Z /\ rw_body w = "" /\ auth_param w "realm" = Some "OAuth2".
Proof. eexists; split; [vm_compute; reflexivity|]. split; [|split]; vm_compute; reflexivity. Qed.

Lemma insufficient_params_order v :
  params_order [("error", "insufficient_scope"); ("scope", v)] =
  "error=" +:+ str1 dquote +:+ "insufficient_scope" +:+ str1 dquote +:+ ", " +:+ param ("scope", v).
Proof. vm_compute. reflexivity. Qed.
Lemma insufficient_params required : exists tail,
  error_params (InsufficientScope required) =
  "error=" +:+ str1 dquote +:+ "insufficient_scope" +:+ str1 dquote +:+ tail /\ (tail = "" \/ exists r, tail = ", " +:+ r).
Proof.
  set (e := InsufficientScope required).
  assert (Hm : error_map e = if Nat.ltb 0 (length (items required))
     then <["scope" := scope_string required]> {["error" := "insufficient_scope"]} else {["error" := "insufficient_scope"]}).
  { reflexivity. }
  destruct (Nat.ltb 0 (length (items required))).
  - eexists. split; [|right; eexists; reflexivity].
    rewrite <- insufficient_params_order. symmetry. apply c12_params. rewrite Hm.
    rewrite map_to_list_insert by (by rewrite lookup_singleton_ne). rewrite map_to_list_singleton. apply Permutation_swap.
  - exists "". split; [|by left]. unfold error_params. rewrite Hm, map_to_list_singleton. reflexivity.
Qed.

Lemma split_list_stop r : exists t, split_list ("error=" +:+ str1 dquote +:+ "insufficient_scope" +:+ str1 dquote +:+ ", " +:+ r)
  = ("error=" +:+ str1 dquote +:+ "insufficient_scope" +:+ str1 dquote) :: t.
Proof. eexists. cbn -[split_list]. repeat (unfold split_list at 1; fold split_list; cbn [Ascii.eqb]). reflexivity. Qed.

Lemma bearer_insufficient required : exists w,
  write_bearer_error new_rw (GErr (InsufficientScope required)) = Some (w, true) /\
  bearer_answer (InsufficientScope required) w.
Proof.
  set (e := InsufficientScope required).
  destruct (insufficient_params required) as (tail & Hp & Ht). fold e in Hp.
  rewrite (write_bearer_fresh e) by (cbn; (unfold valid_status; lia) || done).
  eexists. split; [reflexivity|]. split; [reflexivity|]. split; [reflexivity|].
  unfold auth_param, rec_header. cbn [rw_header].
  change (canonical_key "WWW-Authenticate") with "Www-Authenticate".
  unfold headers. rewrite lookup_singleton.
  assert (seqb (error_params e) "" = false) as -> by (rewrite Hp; reflexivity).
  rewrite Hp. change ("Bearer " +:+ ?x) with ("Bearer" +:+ String " " x).
  rewrite cut_app by reflexivity.
  destruct Ht as [-> | [r ->]].
  - reflexivity.
  - destruct (split_list_stop r) as [t Ht]. rewrite Ht. reflexivity.
Qed.

(** ** Redirects *)
Lemma parse_url_absolute raw u : parse_url true raw = Some u -> u_scheme u <> "" -> parse_url false raw = Some u.
Proof.
  unfold parse_url. destruct (negb (all_bytes (fun c => negb (is_ctl c)) raw)); [done|].
  rewrite andb_true_r, andb_false_r. destruct (seqb raw ""); [done|].
  destruct (seqb raw "*"); [done|]. destruct (getscheme raw) as [[sch rest0]|]; [|done].
  set (rr := match cut "?" rest0 with Some (x, "") => (x, true, "") | Some (x, q) => (x, false, q) | None => (rest0, false, "") end).
  destruct rr as [[rest fq] rq]. cbv zeta.
  destruct (seqb (to_lower sch) "") eqn:Es.
  - apply seqb_true in Es. rewrite Es. cbn [negb andb]. rewrite andb_false_r. intros H Hs. exfalso. apply Hs.
    repeat match type of H with
    | (if ?b then _ else _) = _ => destruct b
    | match ?x with _ => _ end = _ => destruct x eqn:?
    end; try done; by injection H as <-.
  - cbn [negb]. rewrite !andb_true_r, !orb_true_l. intros H _. destruct (strip_prefix "/" rest); cbn [negb andb] in *; exact H.
Qed.

Lemma vget_values v k : vget v k = match values_of v k with x :: _ => x | [] => "" end.
Proof. unfold vget, values_of. by destruct (v !! k) as [[|? ?]|]. Qed.

Definition uri_described (uri : string) : Prop :=
  (exists u, parse_request_uri uri = Some u /\ u_scheme u <> "" /\
     forall k, In k ["error"; "state"; "code"] -> values_of (url_query u) k = []) /\
  ascii_text uri /\ without "#" uri.

Lemma not_star uri u : parse_request_uri uri = Some u -> u_scheme u <> "" -> uri <> "*".
Proof. intros H Hs ->. vm_compute in H. injection H as <-. done. Qed.

Definition pget (m : gmap string string) (k : string) : string := default "" (m !! k).

(** The suite reads the parameters the server has sent. *)
Lemma redirect_answer uri params : uri_described uri ->
  exists w, write_redirect new_rw uri params false = Some (w, true) /\ rec_code w = 303%Z /\
    forall k, In k ["error"; "state"; "code"] -> loc_query w k = Some (pget params k).
Proof.
  intros [(u & Hu & Hs & Hk) [Ha Hw]].
  destruct (c16_query uri u params Hu Ha (not_star uri u Hu Hs)) as (loc & u' & Hl & Hp & Ht & Hf).
  pose proof (c16_no_fragment uri u params loc Hu Hw Hl) as Hh.
  rewrite write_redirect_fresh by done. rewrite Hl. eexists. split; [reflexivity|]. split; [reflexivity|].
  intros k Hin. unfold loc_query, rec_header. cbn [rw_header].
  change (canonical_key "Location") with "Location". rewrite redirect_headers_lookup.
  repeat (rewrite decide_False by discriminate). rewrite decide_True by done.
  change (rw_header new_rw) with (∅ : headers). unfold headers. rewrite lookup_empty. cbn [default app].
  apply without_contains, cut_none in Hh. unfold url_parse. rewrite Hh. change (seqb "" "") with true. cbv iota.
  rewrite (parse_url_absolute loc u' Hp) by (destruct Ht as [-> _]; exact Hs).
  destruct Hf as (v & Hv & Hvk). unfold url_query. rewrite Hv. cbn [fst]. rewrite vget_values, Hvk, (Hk k Hin).
  unfold param_values, pget. by destruct (params !! k).
Qed.

Lemma redirect_fragment_answer uri params : uri_described uri ->
  exists w, write_redirect new_rw uri params true = Some (w, true) /\ rec_code w = 303%Z /\
    forall k, loc_fragment w k = Some (pget params k).
Proof.
  intros [(u & Hu & Hs & _) [Ha Hw]].
  destruct (c17_twice uri u params Hu Hw) as (loc & t & Hl & Hun & Hf).
  destruct (c17_target uri u params Hu Ha (not_star uri u Hu Hs) Hw) as (loc' & u' & Hl' & Hp & Ht & _).
  rewrite Hl in Hl'. injection Hl' as <-.
  rewrite write_redirect_fresh by done. rewrite Hl. eexists. split; [reflexivity|]. split; [reflexivity|].
  intros k. unfold loc_fragment, rec_header. cbn [rw_header].
  change (canonical_key "Location") with "Location". rewrite redirect_headers_lookup.
  repeat (rewrite decide_False by discriminate). rewrite decide_True by done.
  change (rw_header new_rw) with (∅ : headers). unfold headers. rewrite lookup_empty. cbn [default app].
  assert (Hu'' : parse_url false (before_fragment loc) = Some u').
  { apply parse_url_absolute; [exact Hp|]. destruct Ht as [-> _]; exact Hs. }
  assert (Hf' : parse_query t = ((∅ : values), true) -> forall k, pget params k = "").
  { intros Hq k'. destruct Hf as (v & Hv & Hvk). rewrite Hq in Hv. injection Hv as <-. specialize (Hvk k').
    unfold values_of in Hvk. rewrite values_empty in Hvk. cbn [default] in Hvk. unfold param_values in Hvk. unfold pget. by destruct (params !! k'). }
  assert (Huf : u_fragment u' = "") by (by destruct (parse_request_fragment _ _ Hp)).
  unfold url_parse. unfold before_fragment, fragment_of in *.
  destruct (cut "#" loc) as [[b f]|].
  - rewrite Hu''. destruct (seqb f "") eqn:E.
    + apply seqb_true in E. subst f. rewrite Huf. change (parse_query "") with ((∅ : values), true).
      change (unescape EncFragment "") with (Some "") in Hun. injection Hun as <-. rewrite Hf' by reflexivity.
      unfold vget. by rewrite values_empty.
    + unfold set_escaped. rewrite Hun. cbn [u_fragment]. destruct Hf as (v & Hv & Hvk). rewrite Hv.
      rewrite vget_values, Hvk. unfold param_values, pget. by destruct (params !! k).
  - rewrite Hu''. change (seqb "" "") with true. cbv iota. rewrite Huf. change (parse_query "") with ((∅ : values), true).
    change (unescape EncFragment "") with (Some "") in Hun. injection Hun as <-. rewrite Hf' by reflexivity.
    unfold vget. by rewrite values_empty.
Qed.
