(** The errors the package builds (C14). *)
From Verif.Model Require Import GoStr Server.
From Verif.Spec Require Import ScopeSpec WireSpec BuilderSpec.
From Verif.Proof Require Import StrFacts UrlFacts ScopeFacts JsonFacts ScopeProofs WireFacts WireProofs.
From Coq Require Import ZifyBool ZifyNat ZifyN.

Lemma described_json name d : error_json (mk_error 0 name d) = described_document name d.
Proof.
  unfold error_json, described_document. cbn [mk_error e_name e_state e_scope e_realm e_description e_uri].
  unfold omit_string, omit_scope. cbn. destruct (decide (d = "")) as [->|Hd]; [done|].
  apply seqb_false in Hd. by rewrite Hd.
Qed.

Lemma described_facts d name status e : In (name, status, e) (described d) ->
  e_redirect_uri e = "" /\ e_status e = status /\ status_with_body status /\ error_json e = error_json (mk_error 0 name d) /\
  (valid_utf8 d -> error_fields_utf8 e) /\ distinct_headers e /\
  e_headers e = (if decide (name = "invalid_client") then {[ "WWW-Authenticate" := "Basic realm=" +:+ in_quotes "OAuth2" ]} else ∅).
Proof.
  intros H. repeat (destruct H as [[= <- <- <-]|H]; [|]); [..|destruct H];
  (split; [reflexivity|]; split; [reflexivity|]; split; [unfold status_with_body; lia|]; split; [reflexivity|];
   split; [intros Hd; repeat split; try (by apply ascii_utf8); [constructor|exact Hd]|split; [|reflexivity]]);
  (intros n m [x Hn] [y Hm] _; cbn in Hn, Hm;
   try (by rewrite lookup_empty in Hn); apply lookup_singleton_Some in Hn as [<- _], Hm as [<- _]; done).
Qed.

Lemma described_header_of d name status e k l : In (name, status, e) (described d) ->
  document_header e k l <-> described_header name k l.
Proof.
  intros H. destruct (described_facts _ _ _ _ H) as (_ & _ & _ & _ & _ & _ & Hh).
  unfold document_header, described_header. rewrite Hh. split.
  - intros [?|(_ & _ & _ & n & v & Hl & <- & ->)]; [by left|right].
    destruct (decide (name = "invalid_client")) as [->|]; [|by rewrite lookup_empty in Hl].
    apply lookup_singleton_Some in Hl as [<- <-]. done.
  - intros [?|(-> & -> & ->)]; [by left|right].
    rewrite decide_True by done. repeat split; try done.
    eexists _, _. split; [apply lookup_singleton|]. done.
Qed.

Lemma c14_builders : forall w0 d name status e, unsent w0 -> valid_utf8 d -> In (name, status, e) (described d) ->
  exists w h,
    write_error w0 (GErr e) = Some (w, true) /\ rw_sent w = Some (status, h) /\
    (forall k l, h !! k = Some l <->
       described_header name k l \/ ((forall l', ~ described_header name k l') /\ rw_header w0 !! k = Some l)) /\
    json_parse (rw_body w) = Some (described_document name d).
Proof.
  intros w1 d name status e [Hs1 Hb1] Hd H.
  assert (HH := fun k l => described_header_of d name status e k l H).
  destruct (described_facts _ _ _ _ H) as (Hr & <- & Hs & Hj & Hu & Hdh & _).
  assert (Hv : valid_status (e_status e)) by (unfold status_with_body, valid_status in *; lia).
  set (w0 := set_headers w1 (map_to_list (e_headers e))).
  assert (Hw0 : rw_sent w0 = None /\ rw_body w0 = "") by (rewrite <- Hs1, <- Hb1; apply set_headers_sent). destruct Hw0 as [Hw0 Hb0].
  assert (HW : write_error w1 (GErr e) = write w0 (error_json e) (e_status e)).
  { unfold write_error, write_error_order. rewrite Hr. done. }
  rewrite HW, write_fresh by done. rewrite (proj2 (body_allowed_spec _ Hv) Hs).
  do 2 eexists. split; [reflexivity|]. cbn [rw_sent rw_body]. split; [reflexivity|]. split.
  - intros k l. etransitivity; [by apply json_headers_doc|]. rewrite HH. split.
    + intros [?|[Hn ?]]; [by left|right]. split; [|done]. intros l'. rewrite <- HH. apply Hn.
    + intros [?|[Hn ?]]; [by left|right]. split; [|done]. intros l'. rewrite HH. apply Hn.
  - rewrite Hb0, app_nil_s, <- described_json, <- Hj. by apply json_roundtrip_nl; apply error_json_ok, Hu.
Qed.

Lemma challenged_of w0 e ps : unsent w0 -> valid_status (e_status e) -> e_status e <> 500%Z ->
  (if seqb (error_params e) "" then default_challenge else error_params e) = ps ->
  challenged w0 e (e_status e) ps.
Proof.
  intros [Hs0 Hb0] Hv H5 Hp. unfold challenged, write_bearer_error. replace (e_status e =? 500)%Z with false by lia.
  rewrite Hp. cbv zeta.
  rewrite write_header_fresh by done. erewrite write_bytes_sent by (cbn [rw_sent]; reflexivity).
  change (seqb "" "") with true. cbv iota.
  do 2 eexists. split; [reflexivity|].
  cbn [rw_sent rw_body]. split; [reflexivity|]. split; [done|]. split.
  - rewrite header_set_lookup. reflexivity.
  - intros k Hk. rewrite header_set_lookup. change (canonical_key "WWW-Authenticate") with "Www-Authenticate".
    by rewrite decide_False by congruence.
Qed.

Lemma params_two k v k' v' (e : error) : error_map e = <[k' := v']> {[k := v]} -> k <> k' ->
  error_params e = params_order [(k, v); (k', v')].
Proof.
  intros Hm Hne. symmetry. apply c12_params. rewrite Hm.
  rewrite map_to_list_insert by (by rewrite lookup_singleton_ne). rewrite map_to_list_singleton. apply Permutation_swap.
Qed.

Lemma c14_challenges : forall w0, unsent w0 ->
  challenged w0 ProtectedResource 401 ("realm=" +:+ in_quotes "OAuth2") /\
  (forall d, d <> "" -> challenged w0 (InvalidToken d) 401
     ("error=" +:+ in_quotes "invalid_token" +:+ ", error_description=" +:+ in_quotes d)) /\
  (forall d, d <> "" -> challenged w0 (InvalidRequest d) 400
     ("error=" +:+ in_quotes "invalid_request" +:+ ", error_description=" +:+ in_quotes d)) /\
  (forall s, items s <> [] -> challenged w0 (InsufficientScope s) 403
     ("error=" +:+ in_quotes "insufficient_scope" +:+ ", scope=" +:+ in_quotes (join " " (items s)))).
Proof.
  intros w0 Hw. split; [|split; [|split]].
  - apply (challenged_of w0 ProtectedResource); [done|unfold valid_status; cbn; lia|done|]. vm_compute. reflexivity.
  - intros d Hd. apply (challenged_of w0 (InvalidToken d)); [done|unfold valid_status; cbn; lia|done|].
    rewrite (params_two "error" "invalid_token" "error_description" d) by
      (done || (destruct d; [done|reflexivity])).
    vm_compute. reflexivity.
  - intros d Hd. apply (challenged_of w0 (InvalidRequest d)); [done|unfold valid_status; cbn; lia|done|].
    rewrite (params_two "error" "invalid_request" "error_description" d) by
      (done || (destruct d; [done|reflexivity])).
    vm_compute. reflexivity.
  - intros s Hs. apply (challenged_of w0 (InsufficientScope s)); [done|unfold valid_status; cbn; lia|done|].
    rewrite (params_two "error" "insufficient_scope" "scope" (scope_string s)); [|
      unfold error_map, put; cbn; destruct (items s) eqn:E; [done|]; reflexivity|done].
    unfold scope_string. generalize (join " " (items s)). intros x. vm_compute. reflexivity.
Qed.
