(** C79: what a client makes of the answer of any server. *)
From Verif.Model Require Import Server Client.
From Verif.Spec Require Import ScopeSpec WireSpec RequestSpec FormSpec ClientSpec DocumentSpec Cases ClientCases DocumentCases.
From Verif.Proof Require Import DocumentProofs DocumentCase.
Import TextSpec.

#[local] Open Scope string_scope.

(** C79. A text is read exactly if it is a JSON text of at most 10000 levels, *)
Theorem C79_json : forall s j,
  json_parse s = Some j <-> json_text s j /\ (levels j <= 10000)%N.
Proof. exact c79_json. Qed.
Print Assumptions C79_json.

(** and then as the one value it says. *)
Theorem C79_one_meaning : forall s j j',
  json_text s j -> json_text s j' -> j = j'.
Proof. exact c79_one_meaning. Qed.
Print Assumptions C79_one_meaning.

(** A token response is read exactly if the content type is JSON, the body did not
    break off and its members have the right types; members are found by name up to
    the case of letters, the last one that is not null counts, others are ignored. *)
Theorem C79_token : forall rs limit r,
  parse_token_response rs limit = Some r <-> token_answer rs limit r.
Proof. exact c79_token. Qed.
Print Assumptions C79_token.

(** The same for an introspection response; the members of all objects given as
    extra are put together. *)
Theorem C79_introspection : forall rs limit r,
  (forall j, body_says rs limit j -> short_numbers j) ->
  parse_introspection_response rs limit = Some r <-> introspection_answer rs limit r.
Proof. exact c79_introspection. Qed.
Print Assumptions C79_introspection.
(** No number can be longer when the response limit is not (the default is 2048). *)
Theorem C79_introspection_limited : forall rs limit r,
  (limit <= 9000)%Z ->
  parse_introspection_response rs limit = Some r <-> introspection_answer rs limit r.
Proof. exact c79_introspection_limited. Qed.
Print Assumptions C79_introspection_limited.

(** An error has the members of the document and the status of the response. *)
Theorem C79_error : forall rs limit err,
  parse_request_error rs limit = err <-> refusal rs limit err.
Proof. exact c79_error. Qed.
Print Assumptions C79_error.

(** So the calls return, whatever the server answers: *)
Theorem C79_authenticate : forall c do q req rs o,
  build_token_request (cc_base_uri c +:+ cc_token_endpoint c) q = Some req -> do req = Some rs ->
  client_authenticate c do q = o <-> outcome token_answer rs (cc_response_limit c) o.
Proof. exact c79_authenticate. Qed.
Print Assumptions C79_authenticate.
Theorem C79_introspect : forall c do q req rs o,
  build_introspection_request (cc_base_uri c +:+ cc_introspection_endpoint c) q = Some req -> do req = Some rs ->
  (forall j, body_says rs (cc_response_limit c) j -> short_numbers j) ->
  client_introspect c do q = o <-> outcome introspection_answer rs (cc_response_limit c) o.
Proof. exact c79_introspect. Qed.
Print Assumptions C79_introspect.
Theorem C79_introspect_limited : forall c do q req rs o,
  build_introspection_request (cc_base_uri c +:+ cc_introspection_endpoint c) q = Some req ->
  do req = Some rs -> (cc_response_limit c <= 9000)%Z ->
  client_introspect c do q = o <-> outcome introspection_answer rs (cc_response_limit c) o.
Proof. exact c79_introspect_limited. Qed.
Print Assumptions C79_introspect_limited.
Theorem C79_revoke : forall c do q req rs,
  build_revocation_request (cc_base_uri c +:+ cc_revocation_endpoint c) q = Some req -> do req = Some rs ->
  (client_revoke c do q = None <-> rs_status rs = 200%Z) /\
  forall err, client_revoke c do q = Some err <-> rs_status rs <> 200%Z /\ refusal rs (cc_response_limit c) err.
Proof. exact c79_revoke. Qed.
Print Assumptions C79_revoke.

Example C79_case_token : json_typed (rs_ctype odd_reply) /\ token_answer odd_reply 2048 odd_token /\
  parse_token_response odd_reply 2048 = Some odd_token.
Proof. split; [exact (proj1 json_cases)|]. split; [exact odd_answer|vm_compute; reflexivity]. Qed.
Example C79_case_no_token : json_typed (rs_ctype wrong_reply) /\ json_typed (rs_ctype comma_reply) /\ ~ json_typed (rs_ctype html_reply) /\
  forall t, ~ token_answer wrong_reply 2048 t /\ ~ token_answer comma_reply 2048 t /\ ~ token_answer html_reply 2048 t.
Proof.
  destruct json_cases as (_ & H1 & H2 & _ & H3). split; [exact H1|]. split; [exact H2|]. split; [exact H3|].
  intros t. split; [exact (wrong_answer t)|]. split; [exact (comma_answer t)|exact (html_answer t)].
Qed.
Example C79_case_introspection : (forall j, body_says extra_reply 2048 j -> short_numbers j) /\
  introspection_answer extra_reply 2048 extra_response.
Proof. split; [exact extra_all_short|exact extra_answer]. Qed.
Example C79_case_limited : (2048 <= 9000)%Z /\ exists req,
  build_introspection_request (cc_base_uri case_client_config +:+ cc_introspection_endpoint case_client_config) case_lookup_query = Some req /\
  cc_response_limit case_client_config = 2048%Z /\
  client_introspect case_client_config (fun _ => Some extra_reply) case_lookup_query = inl extra_response.
Proof. split; [lia|]. eexists. split; [vm_compute; reflexivity|]. split; [reflexivity|vm_compute; reflexivity]. Qed.
Example C79_case_error : refusal error_reply 2048 (GErr error_value).
Proof. exact error_refusal. Qed.
Example C79_case_call : exists req, build_token_request (cc_base_uri case_client_config +:+ cc_token_endpoint case_client_config) case_token_query = Some req /\
  client_authenticate case_client_config (fun _ => Some odd_reply) case_token_query = inl odd_token /\
  client_authenticate case_client_config (fun _ => Some error_reply) case_token_query = inr (GErr error_value).
Proof. eexists. split; [vm_compute; reflexivity|]. split; vm_compute; reflexivity. Qed.

(** C10. A scope is read from the JSON strings and from null, with the scope
    the string spells; every other text is an error and changes nothing. *)
Theorem C10_scope_unmarshal_exact : forall old text sc ok, scope_unmarshal old text = (sc, ok) <->
  (ok = true /\ ((exists v, json_text text (JStr v) /\ sc = parse_scope v) \/ (json_text text JNull /\ sc = None))) \/
  (ok = false /\ sc = old /\ (forall v, ~ json_text text (JStr v)) /\ ~ json_text text JNull).
Proof. exact c10_exact. Qed.
Print Assumptions C10_scope_unmarshal_exact.

Example C10_case_exact : (exists v, json_text (" " +:+ String dq_char ("ab c" +:+ String dq_char " ")) (JStr v) /\ parse_scope v = Some ["ab"; "c"]) /\
  scope_unmarshal (Some ["x"]) "[null]" = (Some ["x"], false).
Proof.
  split; [|vm_compute; reflexivity].
  assert (H : scope_unmarshal None (" " +:+ String dq_char ("ab c" +:+ String dq_char " ")) = (Some ["ab"; "c"], true)) by (vm_compute; reflexivity).
  apply c10_exact in H as [(_ & [(v & H & E)|(_ & E)])|(E & _)]; [|discriminate E..]. exists v. exact (conj H (eq_sym E)).
Qed.
