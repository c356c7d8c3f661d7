(** C100: answers are read to their end however they arrive. *)
From Verif.Model Require Import ReadAll.
From Verif.Spec Require Import ReadAllSpec.
From Verif.Proof Require Import ReadAllProofs.

#[local] Open Scope string_scope.

(** A body that arrives in any pieces gives the result for the whole body, and no other. *)
Theorem C100_token : forall S (rd : body_reader S) st body clean status ctype limit res, arrives rd st body clean ->
  parse_token_response_on rd st ctype limit res <-> res = parse_token_response (response_with status ctype body clean) limit.
Proof. exact c100_token. Qed.
Print Assumptions C100_token.

Theorem C100_introspection : forall S (rd : body_reader S) st body clean status ctype limit res, arrives rd st body clean ->
  parse_introspection_response_on rd st ctype limit res <->
  res = parse_introspection_response (response_with status ctype body clean) limit.
Proof. exact c100_introspection. Qed.
Print Assumptions C100_introspection.

Theorem C100_error : forall S (rd : body_reader S) st body clean status ctype limit res, arrives rd st body clean ->
  parse_request_error_on rd st status limit res <-> res = parse_request_error (response_with status ctype body clean) limit.
Proof. exact c100_error. Qed.
Print Assumptions C100_error.

(** Whatever the body does: a response comes from calls of Read without a failure, it
    is the response spelled by the bytes they returned, and these are within the limit. *)
Theorem C100_token_any : forall S (rd : body_reader S) st ctype limit r, honest rd ->
  parse_token_response_on rd st ctype limit (Some r) ->
  exists data st', calls rd st data false st' /\ String.length data <= Z.to_nat limit /\
    parse_token_response (response_with 200 ctype data true) (Z.of_nat (String.length data)) = Some r.
Proof. exact c100_token_any. Qed.
Print Assumptions C100_token_any.

Theorem C100_introspection_any : forall S (rd : body_reader S) st ctype limit r, honest rd ->
  parse_introspection_response_on rd st ctype limit (Some r) ->
  exists data st', calls rd st data false st' /\ String.length data <= Z.to_nat limit /\
    parse_introspection_response (response_with 200 ctype data true) (Z.of_nat (String.length data)) = Some r.
Proof. exact c100_introspection_any. Qed.
Print Assumptions C100_introspection_any.

(** An error is the one spelled by the bytes, even if reading failed. *)
Theorem C100_error_any : forall S (rd : body_reader S) st status limit res, honest rd ->
  parse_request_error_on rd st status limit res ->
  exists data failed st', calls rd st data failed st' /\ String.length data <= Z.to_nat limit /\
    res = parse_request_error (response_with status "" data true) (Z.of_nat (String.length data)).
Proof. exact c100_error_any. Qed.
Print Assumptions C100_error_any.

(** A body that advances is read in as many calls as the limit and one more, whatever
    the buffers, so that the functions return. *)
Theorem C100_calls : forall S (rd : body_reader S) st limit k, advances rd ->
  keeps_on (limited rd) (st, limit) k -> k <= Z.to_nat limit.
Proof. exact c100_calls. Qed.
Print Assumptions C100_calls.

Theorem C100_returns : forall S (rd : body_reader S) st ctype status limit, advances rd ->
  (exists res, parse_token_response_on rd st ctype limit res) /\
  (exists res, parse_introspection_response_on rd st ctype limit res) /\
  (exists res, parse_request_error_on rd st status limit res).
Proof. exact c100_returns. Qed.
Print Assumptions C100_returns.

(** A token response, byte by byte, with the end after or together with its last byte. *)
Definition small_body : string := "{""token_type"":""bearer"",""access_token"":""a.b"",""expires_in"":60}".

Example C100_token_case :
  (exists t, parse_token_response_on (drip NoErr EndOfFile) small_body "application/json" 2048 (Some t) /\ tr_access_token t = "a.b") /\
  (exists t, parse_token_response_on (drip EndOfFile EndOfFile) small_body "application/json" 2048 (Some t) /\ tr_access_token t = "a.b").
Proof.
  split; (eexists; split;
    [first [apply (c100_token _ _ _ _ _ 200 _ _ _ (drip_arrives true small_body))
           |apply (c100_token _ _ _ _ _ 200 _ _ _ (drip_arrives_at_once small_body))]; vm_compute; reflexivity|vm_compute; reflexivity]).
Qed.
(** A limit of its length hides a failure after the last byte, not one with it. *)
Example C100_token_case_failed :
  (exists t, parse_token_response_on (drip NoErr ReadError) small_body "application/json" (Z.of_nat (String.length small_body)) (Some t)) /\
  (forall res, parse_token_response_on (drip ReadError ReadError) small_body "application/json" (Z.of_nat (String.length small_body)) res -> res = None).
Proof.
  split.
  - eexists. apply (c100_token _ _ _ _ _ 200 _ _ _ (drip_arrives false small_body)). vm_compute. reflexivity.
  - intros res (data & ok & st' & Hr & ->). assert (Hs : small_body <> "") by discriminate.
    by rewrite (drip_breaks _ _ _ _ _ _ Hs (Z.le_refl _) Hr).
Qed.
(** A body cut by the limit is no response. *)
Example C100_token_case_cut : forall res,
  parse_token_response_on (drip NoErr EndOfFile) small_body "application/json" 10 res -> res = None.
Proof. intros res H. apply (c100_token _ _ _ _ _ 200 _ _ _ (drip_arrives true small_body)) in H. subst. vm_compute. reflexivity. Qed.
Example C100_introspection_case :
  exists t, parse_introspection_response_on (drip NoErr EndOfFile) "{""active"":true}" "application/json" 2048 (Some t).
Proof. eexists. apply (c100_introspection _ _ _ _ _ 200 _ _ _ (drip_arrives true _)). vm_compute. reflexivity. Qed.
Example C100_error_case :
  exists e, parse_request_error_on (drip NoErr ReadError) "{""error"":""invalid_grant""}" 400 2048 (GErr e) /\ e_name e = "invalid_grant".
Proof. eexists. split; [apply (c100_error _ _ _ _ _ 400 "" _ _ (drip_arrives false _)); vm_compute; reflexivity|vm_compute; reflexivity]. Qed.
Example C100_any_case : honest (drip NoErr EndOfFile) /\ honest (drip ReadError ReadError).
Proof. split; exact (drip_honest _ _). Qed.
Example C100_calls_case : advances (drip NoErr EndOfFile) /\ keeps_on (limited (drip NoErr EndOfFile)) ("abcd", 3%Z) 3.
Proof.
  split; [by apply drip_advances|]. do 3 (eapply (keeps_more _ 512); [lia|vm_compute; reflexivity|]). apply keeps_start.
Qed.
(** A body that does not advance is read forever. *)
Example C100_stalls : ~ exists res, parse_token_response_on stalls tt "application/json" 2048 res.
Proof. by apply c100_stalls. Qed.
