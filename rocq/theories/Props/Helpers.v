(** C85: what the helpers for requests and responses send. *)
From Verif.Model Require Import Oauth2 Token Endpoints Errors Hs256.
From Verif.Spec Require Import TokenSpec WireSpec NumberSpec ClientSpec DocumentSpec HelperSpec ClientCases.
From Verif.Proof Require Import CodecProofs HelperProofs ClientCase.

#[local] Open Scope string_scope.

(** C85. The parameters of each response. *)
Theorem C85_token_map : forall r k v, token_map r !! k = Some v <-> token_param r k v.
Proof. exact c85_token_map. Qed.
Print Assumptions C85_token_map.

Theorem C85_code_map : forall r k v, code_map r !! k = Some v <-> code_param r k v.
Proof. exact c85_code_map. Qed.
Print Assumptions C85_code_map.

Theorem C85_error_map : forall e k v, error_map e !! k = Some v <-> error_param e k v.
Proof. exact c85_error_map. Qed.
Print Assumptions C85_error_map.

(** A response made by the constructor has no other parameters than these. *)
Theorem C85_bearer : forall t z k v, token_map (new_bearer_token_response t z) !! k = Some v <->
  (k = "token_type" /\ v = "bearer") \/ (k = "access_token" /\ v = t) \/ (k = "expires_in" /\ v = itoa z).
Proof. exact c85_bearer. Qed.
Print Assumptions C85_bearer.

(** Numbers are written as literals that stand for them. *)
Theorem C85_numbers : forall z, int64 z -> json_number (itoa z) /\ is_integer (JNum (itoa z)) z.
Proof. exact c85_numbers. Qed.
Print Assumptions C85_numbers.

(** Without a redirect URI a token response is written as a document with exactly
    its fields as members. *)
Theorem C85_token_document : forall w0 r, unsent w0 -> tr_redirect_uri r = "" -> token_texts r ->
  writes_document w0 (write_token_response w0 r) (token_member r).
Proof. exact c85_token_document. Qed.
Print Assumptions C85_token_document.

(** So is an introspection response, if the type of an active token is known. *)
Theorem C85_introspection_document : forall w0 r, unsent w0 ->
  (ir_active r = true -> In (ir_token_type r) ["access_token"; "refresh_token"]) ->
  introspection_texts_with json_number r ->
  writes_document w0 (write_introspection_response w0 r) (introspection_member r).
Proof. exact c85_introspection_document. Qed.
Print Assumptions C85_introspection_document.

(** Otherwise nothing is written. *)
Theorem C85_introspection_refused : forall w0 r, ir_active r = true ->
  ~ In (ir_token_type r) ["access_token"; "refresh_token"] ->
  write_introspection_response w0 r = Some (w0, false).
Proof. exact c85_introspection_refused. Qed.
Print Assumptions C85_introspection_refused.

(** With a redirect URI the parameters are sent in the fragment. *)
Theorem C85_token_redirect : forall w0 r, tr_redirect_uri r <> "" ->
  writes_redirect w0 (write_token_response w0 r) (tr_redirect_uri r) (token_param r) true.
Proof. exact c85_token_redirect. Qed.
Print Assumptions C85_token_redirect.

(** Those of a code response are sent in the query. *)
Theorem C85_code_redirect : forall w0 r,
  writes_redirect w0 (write_code_response w0 r) (cr_redirect_uri r) (code_param r) false.
Proof. exact c85_code_redirect. Qed.
Print Assumptions C85_code_redirect.

(** Those of an error are sent where the error says. *)
Theorem C85_error_redirect : forall w0 e, e_redirect_uri e <> "" -> e_headers e = ∅ ->
  writes_redirect w0 (write_error w0 (GErr e)) (e_redirect_uri e) (error_param e) (e_use_fragment e).
Proof. exact c85_error_redirect. Qed.
Print Assumptions C85_error_redirect.

(** Setting a redirect replaces the state and nothing else. *)
Theorem C85_token_set_redirect : forall w0 r uri state, uri <> "" ->
  writes_redirect w0 (write_token_response w0 (set_token_redirect r uri state)) uri
    (fun k v => unless_empty "state" state k v \/ (k <> "state" /\ token_param r k v)) true.
Proof. exact c85_token_set_redirect. Qed.
Print Assumptions C85_token_set_redirect.

Theorem C85_error_set_redirect : forall w0 e uri state frag, uri <> "" -> e_headers e = ∅ ->
  writes_redirect w0 (write_error w0 (GErr (set_error_redirect e uri state frag))) uri
    (fun k v => unless_empty "state" state k v \/ (k <> "state" /\ error_param e k v)) frag.
Proof. exact c85_error_set_redirect. Qed.
Print Assumptions C85_error_set_redirect.

(** The forms of the requests. *)
Theorem C85_token_form : forall r, has_fields (token_request_values r) (token_field r).
Proof. exact c85_token_form. Qed.
Print Assumptions C85_token_form.

Theorem C85_lookup_form : forall r, has_fields (lookup_request_values r) (lookup_field r).
Proof. exact c85_lookup_form. Qed.
Print Assumptions C85_lookup_form.

(** The names that are known. *)
Theorem C85_known_grants : forall s, known_grant_type s = true <->
  In s ["password"; "client_credentials"; "authorization_code"; "refresh_token"].
Proof. exact c85_known_grants. Qed.
Print Assumptions C85_known_grants.

Theorem C85_known_responses : forall s, known_response_type s = true <-> In s ["token"; "code"].
Proof. exact c85_known_responses. Qed.
Print Assumptions C85_known_responses.

Theorem C85_known_tokens : forall s, known_token_type s = true <-> In s ["access_token"; "refresh_token"].
Proof. exact c85_known_tokens. Qed.
Print Assumptions C85_known_tokens.

(** A token is valid for a secret if its signature is the HMAC of its key. *)
Theorem C85_valid : forall t secret, hs_valid t secret = true <-> hs_signature t = hmac_sha256 secret (hs_key t).
Proof. exact c85_valid. Qed.
Print Assumptions C85_valid.

Theorem C85_equal : forall t s, hs_equal t s = true <-> hs_signature t = s.
Proof. exact c85_equal. Qed.
Print Assumptions C85_equal.

(** The text of an error gives its name and its description. *)
Theorem C85_error_text : forall e n d, without ":" (e_name e) -> without ":" n ->
  error_string e = n +:+ ": " +:+ d <-> n = e_name e /\ d = e_description e.
Proof. exact c85_error_text. Qed.
Print Assumptions C85_error_text.

(** Concrete responses. *)
Definition redirected_response : token_response :=
  set_token_redirect case_token_response "https://c.example/cb?a=1" "x".
Example C85_case_documents :
  (unsent new_rw /\ tr_redirect_uri case_token_response = "" /\ token_texts case_token_response) /\
  (exists w, write_token_response new_rw case_token_response = Some (w, true) /\
     rw_body w = "{""token_type"":""bearer"",""access_token"":""abc.def"",""expires_in"":3600,""refresh_token"":""ghi"",""scope"":""read write"",""state"":""a \""quoted\"" \u0026 \u003ctagged\u003e state""}" +:+ str1 "010") /\
  (exists w, write_introspection_response new_rw case_introspection = Some (w, true) /\
     rw_body w = "{""active"":true,""scope"":""read"",""client_id"":""c1"",""username"":""u1"",""token_type"":""access_token"",""exp"":1700000000,""iat"":-5,""sub"":""s"",""iss"":""https://s.example"",""extra"":{""age"":-1.5e+3,""tags"":[""x"",null,true],""z"":{""k"":""\u003cv\u003e""}}}" +:+ str1 "010").
Proof.
  split; [split; [done|split; [done|exact case_token_texts]]|].
  split; eexists; (split; [vm_compute; reflexivity|vm_compute; reflexivity]).
Qed.
Example C85_case_introspection :
  (ir_active case_introspection = true -> In (ir_token_type case_introspection) ["access_token"; "refresh_token"]) /\
  introspection_texts_with json_number case_introspection /\
  introspection_member case_introspection "iat" (JNum "-5") /\ ~ (exists j, introspection_member case_introspection "nbf" j).
Proof.
  split; [intros _; by left|].
  split; [exact (texts_weaken float_literal json_number _ float_json_number case_introspection_texts)|]. split.
  - do 6 right. left. split; [done|]. split; [vm_compute; reflexivity|done].
  - intros [j H]. unfold introspection_member, optional_scope, optional_text, optional_number in H. cbn in H.
    decompose [or and] H; done.
Qed.
Example C85_case_redirects :
  (exists u, parse_request_uri "https://c.example/cb?a=1" = Some u) /\
  (exists w h, write_token_response new_rw redirected_response = Some (w, true) /\ rw_sent w = Some (303%Z, h) /\
     h !! "Location" = Some ["https://c.example/cb?a=1#access_token=abc.def&expires_in=3600&refresh_token=ghi&scope=read+write&state=x&token_type=bearer"]) /\
  (exists w h, write_code_response new_rw (new_code_response "q&r" "https://c.example/cb?a=1" "x") = Some (w, true) /\
     rw_sent w = Some (303%Z, h) /\ h !! "Location" = Some ["https://c.example/cb?a=1&code=q%26r&state=x"]) /\
  (exists w h, write_error new_rw (GErr (set_error_redirect (AccessDenied "no") "https://c.example/cb" "y" false)) = Some (w, true) /\
     rw_sent w = Some (303%Z, h) /\ h !! "Location" = Some ["https://c.example/cb?error=access_denied&error_description=no&state=y"]).
Proof.
  split; [eexists; vm_compute; reflexivity|].
  split; [|split]; do 2 eexists; (split; [vm_compute; reflexivity|split; [reflexivity|vm_compute; reflexivity]]).
Qed.
Example C85_case_forms :
  encode_values (token_request_values case_token_query) = "grant_type=password&password=p1&scope=read&username=u1" /\
  error_string (AccessDenied "no") = "access_denied: no" /\ without ":" (e_name (AccessDenied "no")).
Proof. split; [vm_compute; reflexivity|]. split; [done|]. cbn. unfold without. cbn. intuition discriminate. Qed.
