(** C13 - C15. *)
From Verif.Model Require Import GoStr Server.
From Verif.Spec Require Import ScopeSpec WireSpec.
From Verif.Proof Require Import StrFacts UrlFacts ScopeFacts JsonFacts ScopeProofs WireFacts.
From Coq Require Import ZifyBool ZifyNat ZifyN.

Lemma write_header_fresh w c : rw_sent w = None -> valid_status c ->
  write_header w c = Some {| rw_header := rw_header w; rw_sent := Some (c, rw_header w); rw_body := rw_body w |}.
Proof.
  unfold valid_status. intros H Hc. unfold write_header. rewrite H.
  replace ((c <? 100)%Z || (999 <? c)%Z) with false by lia. done.
Qed.
Lemma write_header_bad w c : rw_sent w = None -> ~ valid_status c -> write_header w c = None.
Proof.
  unfold valid_status. intros H Hc. unfold write_header. rewrite H.
  replace ((c <? 100)%Z || (999 <? c)%Z) with true by lia. done.
Qed.
Lemma write_bytes_sent w b c h : rw_sent w = Some (c, h) ->
  write_bytes w b = Some (if seqb b "" then (w, true) else if body_allowed c
     then ({| rw_header := rw_header w; rw_sent := rw_sent w; rw_body := rw_body w +:+ b |}, true)
     else (w, false)).
Proof.
  intros H. unfold write_bytes, write_header. rewrite H. rewrite H. destruct (seqb b ""), (body_allowed c); done.
Qed.
Lemma body_allowed_spec c : valid_status c -> body_allowed c = true <-> status_with_body c.
Proof. unfold valid_status, status_with_body, body_allowed. lia. Qed.

(** The writer just before the status is sent. *)
Definition json_headers (w : rw) : rw :=
  header_set (header_set (header_set w "Content-Type" "application/json;charset=UTF-8")
    "Cache-Control" "no-store") "Pragma" "no-cache".

Lemma json_encode_nonempty j : seqb (json_encode j) "" = false.
Proof. apply seqb_false. unfold json_encode. intros H. apply app_eq_nil in H as [_ H]. discriminate. Qed.

Lemma write_fresh w obj c : rw_sent w = None -> valid_status c ->
  write w obj c =
  Some (if body_allowed c
        then ({| rw_header := rw_header (json_headers w); rw_sent := Some (c, rw_header (json_headers w));
                 rw_body := rw_body w +:+ json_encode obj |}, true)
        else ({| rw_header := rw_header (json_headers w); rw_sent := Some (c, rw_header (json_headers w));
                 rw_body := rw_body w |}, false)).
Proof.
  intros H Hc. unfold write. fold (json_headers w).
  rewrite write_header_fresh by done. erewrite write_bytes_sent by (cbn [rw_sent]; reflexivity).
  rewrite json_encode_nonempty. by destruct (body_allowed c).
Qed.
Lemma write_bad w obj c : rw_sent w = None -> ~ valid_status c -> write w obj c = None.
Proof. intros H Hc. unfold write. by rewrite write_header_bad. Qed.

(** ** C13 *)

Lemma error_params_nil e : error_params e = "" <-> error_map e = ∅.
Proof.
  destruct (sorted_params (map_to_list (error_map e))) as (ps & Hp & Heq). unfold error_params. rewrite Heq. split.
  - intros H. pose proof (length_join_params ps). rewrite H in H0. cbn in H0.
    destruct ps; [|cbn in H0; lia]. symmetry in Hp. apply Permutation_nil_r in Hp.
    by apply map_to_list_empty_iff.
  - intros E. rewrite E, map_to_list_empty in Hp. apply Permutation_nil_r in Hp. subst. done.
Qed.

Lemma write_bearer_fresh e : valid_status (e_status e) -> e_status e <> 500%Z ->
  let header := "Bearer " +:+ (if seqb (error_params e) "" then default_challenge else error_params e) in
  write_bearer_error new_rw (GErr e) =
  Some ({| rw_header := {[ "Www-Authenticate" := [header] ]};
           rw_sent := Some (e_status e, {[ "Www-Authenticate" := [header] ]}); rw_body := "" |}, true).
Proof.
  intros Hv H5 header. unfold write_bearer_error. replace (e_status e =? 500)%Z with false by lia.
  fold header. rewrite write_header_fresh by done. erewrite write_bytes_sent by (cbn [rw_sent]; reflexivity).
  change (seqb "" "") with true. cbv iota. done.
Qed.

Lemma c13_partial : forall e,
  valid_status (e_status e) -> e_status e <> 500%Z ->
  (forall k v, error_param e k v -> quotable v) ->
  exists w h header ps,
    write_bearer_error new_rw (GErr e) = Some (w, true) /\
    rw_sent w = Some (e_status e, h) /\ h !! "Www-Authenticate" = Some [header] /\
    read_challenge "Bearer" header = Some ps /\ NoDup (map fst ps) /\
    ((forall k v, ~ error_param e k v) -> ps = [("realm", "OAuth2")]) /\
    ((exists k v, error_param e k v) -> forall k v, In (k, v) ps <-> error_param e k v).
Proof.
  intros e Hv H5 Hq. pose proof (write_bearer_fresh e Hv H5) as HW. cbv zeta in HW.
  destruct (seqb (error_params e) "") eqn:E.
  - apply seqb_true, error_params_nil in E.
    eexists _, _, _, [("realm", "OAuth2")]. split; [exact HW|]. cbn [rw_sent]. split; [done|].
    split; [unfold headers; apply lookup_singleton|]. split; [vm_compute; reflexivity|].
    split; [apply NoDup_singleton|]. split; [done|].
    intros (k & v & H). apply error_map_spec in H. by rewrite E, lookup_empty in H.
  - destruct (error_params_read e Hq) as (ps & Hp & Hr).
    eexists _, _, _, ps. split; [exact HW|]. cbn [rw_sent]. split; [done|].
    split; [unfold headers; apply lookup_singleton|]. split; [done|].
    split; [rewrite Hp; apply NoDup_fst_map_to_list|]. split.
    + intros Hno. exfalso. apply seqb_false in E. apply E. apply error_params_nil, map_empty.
      intros k. destruct (error_map e !! k) eqn:Ek; [|done]. apply error_map_spec in Ek. by eapply Hno in Ek.
    + intros _ k v. by rewrite <- elem_of_list_In, Hp, elem_of_map_to_list, error_map_spec.
Qed.

(** A scope item with a quote in it. *)
Definition c13_scope : scope := Some ["x" +:+ str1 dq_char +:+ ",realm=" +:+ str1 dq_char +:+ "y"].
Lemma c13_refuted : exists e w h header ps,
  e = InsufficientScope c13_scope /\
  write_bearer_error new_rw (GErr e) = Some (w, true) /\
  rw_sent w = Some (e_status e, h) /\ h !! "Www-Authenticate" = Some [header] /\
  read_challenge "Bearer" header = Some ps /\
  In ("realm", "y") ps /\ (forall v, ~ error_param e "realm" v).
Proof.
  do 5 eexists. split; [reflexivity|]. split; [vm_compute; reflexivity|]. split; [reflexivity|].
  split; [vm_compute; reflexivity|]. split; [vm_compute; reflexivity|].
  split; [right; right; left; reflexivity|].
  intros v [(?&?&?)|[(?&?&?)|[(?&?&?)|[(?&?&?)|[(?&?&?)|(?&?&?)]]]]]; try discriminate. cbn in *. congruence.
Qed.

(** ** C14 *)

Lemma ascii_utf8 s : all_bytes (fun a => (ord a <? 128)%N) s = true -> valid_utf8 s.
Proof. apply valid_utf8_ascii. Qed.

Lemma omit_string_in k v p : In p (omit_string k v) <-> p = (k, JStr v) /\ v <> "".
Proof.
  unfold omit_string. destruct (seqb v "") eqn:E.
  - apply seqb_true in E. split; [intros []|intros [_ H]; done].
  - apply seqb_false in E. cbn. split; [intros [<-|[]]; done|intros [-> _]; auto].
Qed.
Lemma omit_scope_in k sc p : In p (omit_scope k sc) <-> p = (k, JStr (scope_string sc)) /\ items sc <> [].
Proof.
  unfold omit_scope. destruct (scope_empty sc) eqn:E.
  - apply scope_empty_spec in E. split; [intros []|intros [_ H]; done].
  - assert (items sc <> []) by (intros H; apply scope_empty_spec in H; congruence).
    cbn. split; [intros [<-|[]]; done|intros [-> _]; auto].
Qed.

Definition error_members (e : error) : list (string * json) :=
  [("error", JStr (e_name e))] ++ omit_string "state" (e_state e) ++ omit_scope "scope" (e_scope e)
  ++ omit_string "realm" (e_realm e) ++ omit_string "error_description" (e_description e)
  ++ omit_string "error_uri" (e_uri e).

Lemma error_members_in e k v : In (k, v) (error_members e) <-> exists x, v = JStr x /\ error_member e k x.
Proof.
  unfold error_members. rewrite !in_app_iff, !omit_string_in, omit_scope_in.
  unfold error_member, error_param, scope_string. split.
  - intros [[[= <- <-]|[]]|[[[= -> ->] H]|[[[= -> ->] H]|[[[= -> ->] H]|[[[= -> ->] H]|[[= -> ->] H]]]]]];
      eexists; (split; [reflexivity|]); [by left|right; (split; [done|]); tauto..].
  - intros (x & -> & [[-> ->]|[Hk H]]); [left; by left|]. right.
    destruct H as [(-> & -> & ?)|[(-> & -> & ?)|[(-> & -> & ?)|[(-> & -> & ?)|[(-> & -> & ?)|(-> & ? & ->)]]]]]; tauto.
Qed.

Lemma error_members_nodup e : NoDup (map fst (error_members e)).
Proof.
  unfold error_members, omit_string, omit_scope.
  destruct (seqb (e_state e) ""), (scope_empty (e_scope e)), (seqb (e_realm e) ""),
    (seqb (e_description e) ""), (seqb (e_uri e) ""); cbn [app map fst];
  repeat (constructor; [rewrite ?elem_of_cons, elem_of_nil; intuition discriminate|]); constructor.
Qed.

Lemma error_json_ok e : error_fields_utf8 e -> json_ok (error_json e) /\ (jdepth (error_json e) <= max_depth)%N.
Proof.
  intros (H1 & H2 & H3 & H4 & H5 & H6). change (error_json e) with (JObj (error_members e)). split.
  - apply json_ok_obj, List.Forall_forall. intros [k v] Hin. apply error_members_in in Hin as (x & -> & Hm). cbn.
    assert (Hsc : valid_utf8 (join " " (items (e_scope e)))) by (by apply valid_utf8_scope).
    destruct Hm as [[-> ->]|[_ Hm]]; [split; [by apply ascii_utf8|done]|].
    destruct Hm as [(-> & -> & ?)|[(-> & -> & ?)|[(-> & -> & ?)|[(-> & -> & ?)|[(-> & -> & ?)|(-> & ? & ->)]]]]];
      (split; [by apply ascii_utf8|done]).
  - unfold error_members, omit_string, omit_scope.
    destruct (seqb (e_state e) ""), (scope_empty (e_scope e)), (seqb (e_realm e) ""),
      (seqb (e_description e) ""), (seqb (e_uri e) ""); vm_compute; discriminate.
Qed.

Lemma json_headers_lookup w k l :
  rw_header (json_headers w) !! k = Some l <->
  json_header k l \/ (k <> "Content-Type" /\ k <> "Cache-Control" /\ k <> "Pragma" /\ rw_header w !! k = Some l).
Proof.
  unfold json_headers. rewrite !header_set_lookup.
  change (canonical_key "Content-Type") with "Content-Type".
  change (canonical_key "Cache-Control") with "Cache-Control".
  change (canonical_key "Pragma") with "Pragma".
  unfold json_header.
  destruct (decide ("Pragma" = k)) as [<-|]; [split; [intros [= <-]; auto|intros [[[? ?]|[[? ?]|[_ ->]]]|(?&?&?&?)]; done]|].
  destruct (decide ("Cache-Control" = k)) as [<-|]; [split; [intros [= <-]; auto|intros [[[? ?]|[[_ ->]|[? ?]]]|(?&?&?&?)]; done]|].
  destruct (decide ("Content-Type" = k)) as [<-|]; [split; [intros [= <-]; auto|intros [[[_ ->]|[[? ?]|[? ?]]]|(?&?&?&?)]; done]|].
  split; [intros H; right; auto|]. intros [[[? ?]|[[? ?]|[? ?]]]|(?&?&?&?)]; congruence.
Qed.

Lemma json_headers_doc w e k l : distinct_headers e ->
  rw_header (json_headers (set_headers w (map_to_list (e_headers e)))) !! k = Some l <->
  document_header e k l \/ ((forall l', ~ document_header e k l') /\ rw_header w !! k = Some l).
Proof.
  intros Hd. rewrite json_headers_lookup.
  rewrite (set_headers_lookup w (map_to_list (e_headers e))) by (by eapply order_distinct).
  unfold document_header. split.
  - intros [H|(H1 & H2 & H3 & H4)]; [by left; left|].
    destruct H4 as [([n v] & Hin & Hk & Hl)|[H4 H5]].
    + left. right. do 3 (split; [done|]).
      exists n, v. apply elem_of_list_In, elem_of_map_to_list in Hin. done.
    + right. split; [|done]. intros l' [[[? _]|[[? _]|[? _]]]|(_ & _ & _ & n & v & Hn & Hk & _)]; [done..|].
      apply (H5 (n, v)); [|done]. by apply elem_of_list_In, elem_of_map_to_list.
  - intros [[H|(H1 & H2 & H3 & n & v & Hn & Hk & Hl)]|[H4 H5]]; [by left|right|].
    + do 3 (split; [done|]).
      left. exists (n, v). split; [|done]. by apply elem_of_list_In, elem_of_map_to_list.
    + assert (k <> "Content-Type" /\ k <> "Cache-Control" /\ k <> "Pragma") as (H1 & H2 & H3).
      { repeat split; intros ->; eapply H4; left; unfold json_header; eauto. }
      right. do 3 (split; [done|]). right. split; [done|]. intros [n v] Hin <-.
      eapply H4. right. do 3 (split; [done|]). exists n, v. apply elem_of_list_In, elem_of_map_to_list in Hin. done.
Qed.

Lemma c14_document : forall w0 e, unsent w0 ->
  e_redirect_uri e = "" -> status_with_body (e_status e) -> error_fields_utf8 e -> distinct_headers e ->
  exists w h o,
    write_error w0 (GErr e) = Some (w, true) /\
    rw_sent w = Some (e_status e, h) /\
    (forall k l, h !! k = Some l <->
       document_header e k l \/ ((forall l', ~ document_header e k l') /\ rw_header w0 !! k = Some l)) /\
    json_parse (rw_body w) = Some (JObj o) /\ NoDup (map fst o) /\
    (forall k v, In (k, v) o <-> exists x, v = JStr x /\ error_member e k x).
Proof.
  intros w1 e [Hs1 Hb1] Hr Hs Hu Hd.
  assert (Hv : valid_status (e_status e)) by (unfold status_with_body, valid_status in *; lia).
  set (w0 := set_headers w1 (map_to_list (e_headers e))).
  assert (Hw0 : rw_sent w0 = None /\ rw_body w0 = "") by (rewrite <- Hs1, <- Hb1; apply set_headers_sent). destruct Hw0 as [Hw0 Hb0].
  assert (HW : write_error w1 (GErr e) = write w0 (error_json e) (e_status e)).
  { unfold write_error, write_error_order. rewrite Hr. done. }
  rewrite HW, write_fresh by done. rewrite (proj2 (body_allowed_spec _ Hv) Hs).
  eexists _, _, (error_members e). split; [reflexivity|]. cbn [rw_sent rw_body]. split; [reflexivity|].
  split; [intros k l; by apply json_headers_doc|]. split.
  - rewrite Hb0, app_nil_s. by apply json_roundtrip_nl; apply error_json_ok.
  - split; [apply error_members_nodup|]. intros k v. apply error_members_in.
Qed.

Lemma c14_other : forall w0, unsent w0 ->
  exists w h,
    write_error w0 GOther = Some (w, true) /\ rw_sent w = Some (500%Z, h) /\
    (forall k l, h !! k = Some l <->
       json_header k l \/ ((forall l', ~ json_header k l') /\ rw_header w0 !! k = Some l)) /\
    json_parse (rw_body w) = Some (JObj [("error", JStr "server_error")]).
Proof.
  intros w0 [Hs0 Hb0]. unfold write_error, write_error_order. change (map_to_list (e_headers (ServerError ""))) with (@nil (string * string)).
  cbn [fold_left]. change (negb (seqb (e_redirect_uri (ServerError "")) "")) with false. cbv iota.
  rewrite write_fresh by (done || (unfold valid_status; cbn; lia)).
  change (body_allowed (e_status (ServerError ""))) with true. cbv iota.
  do 2 eexists. split; [reflexivity|]. cbn [rw_sent rw_body]. split; [reflexivity|]. split.
  - intros k l. rewrite json_headers_lookup. split.
    + intros [H|(H1 & H2 & H3 & H4)]; [by left|]. right. split; [|done].
      intros l' [[? _]|[[? _]|[? _]]]; done.
    + intros [H|[H4 H5]]; [by left|]. right.
      repeat split; try done; intros ->; eapply H4; unfold json_header; eauto.
  - rewrite Hb0, app_nil_s. vm_compute. reflexivity.
Qed.

Lemma c14_panics : forall w0 e, unsent w0 -> e_redirect_uri e = "" ->
  write_error w0 (GErr e) = None <-> ~ valid_status (e_status e).
Proof.
  intros w1 e [Hs1 Hb1] Hr. set (w0 := set_headers w1 (map_to_list (e_headers e))).
  assert (Hw0 : rw_sent w0 = None) by (rewrite <- Hs1; apply set_headers_sent).
  assert (HW : write_error w1 (GErr e) = write w0 (error_json e) (e_status e)).
  { unfold write_error, write_error_order. rewrite Hr. done. }
  rewrite HW. destruct (decide ((100 <= e_status e)%Z /\ (e_status e <= 999)%Z)) as [Hv|Hv].
  - rewrite write_fresh by done. split; [by destruct (body_allowed _)|]. intros H. by destruct H.
  - split; [done|]. intros _. by apply write_bad.
Qed.

Lemma c14_bearer : forall w0 e, unsent w0 -> valid_status (e_status e) -> e_status e <> 500%Z ->
  exists w h header,
    write_bearer_error w0 (GErr e) = Some (w, true) /\ rw_sent w = Some (e_status e, h) /\
    rw_body w = "" /\ h !! "Www-Authenticate" = Some [header] /\
    (forall k, k <> "Www-Authenticate" -> h !! k = rw_header w0 !! k) /\
    exists ps, header = "Bearer " +:+ ps /\ ps <> "" /\
      ((forall k v, ~ error_param e k v) -> ps = "realm=" +:+ str1 dq_char +:+ "OAuth2" +:+ str1 dq_char).
Proof.
  intros w0 e [Hs0 Hb0] Hv H5. unfold write_bearer_error. replace (e_status e =? 500)%Z with false by lia.
  set (header := "Bearer " +:+ (if seqb (error_params e) "" then default_challenge else error_params e)).
  rewrite write_header_fresh by done. erewrite write_bytes_sent by (cbn [rw_sent]; reflexivity).
  change (seqb "" "") with true. cbv iota.
  eexists _, _, header.
  split; [reflexivity|].
  cbn [rw_sent rw_body]. split; [reflexivity|]. split; [done|]. split; [|split].
  - rewrite header_set_lookup. reflexivity.
  - intros k Hk. rewrite header_set_lookup. change (canonical_key "WWW-Authenticate") with "Www-Authenticate".
    by rewrite decide_False by congruence.
  - eexists. split; [reflexivity|]. destruct (seqb (error_params e) "") eqn:E.
    + split; [done|]. done.
    + apply seqb_false in E. split; [done|]. intros Hno. exfalso. apply E.
      apply error_params_nil, map_empty. intros k. destruct (error_map e !! k) eqn:Ek; [|done].
      apply error_map_spec in Ek. by eapply Hno in Ek.
Qed.

Lemma c14_bearer_500 : forall w0 err, unsent w0 ->
  (err = GOther \/ exists e, err = GErr e /\ e_status e = 500%Z) ->
  exists w, write_bearer_error w0 err = Some (w, true) /\
    rw_sent w = Some (500%Z, rw_header w0) /\ rw_body w = "".
Proof.
  intros w0 err [Hs0 Hb0] Herr.
  assert (HW : write_bearer_error w0 err = match write_header w0 500 with None => None | Some w => write_bytes w "" end).
  { destruct Herr as [->|(e & -> & He)]; [done|]. unfold write_bearer_error. by rewrite He. }
  rewrite HW, write_header_fresh by (done || (unfold valid_status; lia)).
  erewrite write_bytes_sent by (cbn [rw_sent]; reflexivity). eexists. split; [reflexivity|]. done.
Qed.

(** ** Redirects as responses *)

Definition redirect_headers (w : rw) (loc : string) : rw :=
  header_set (header_set (header_set (header_add w "Location" loc) "Cache-Control" "no-store")
    "Pragma" "no-cache") "Referrer-Policy" "origin".

Lemma write_redirect_fresh w uri params frag : rw_sent w = None ->
  write_redirect w uri params frag =
  match redirect_location uri params frag with
  | None => Some (w, false)
  | Some loc => Some ({| rw_header := rw_header (redirect_headers w loc);
                         rw_sent := Some (303%Z, rw_header (redirect_headers w loc));
                         rw_body := rw_body w |}, true)
  end.
Proof.
  intros H. unfold write_redirect. destruct (redirect_location uri params frag) as [loc|]; [|done].
  fold (redirect_headers w loc). rewrite write_header_fresh by (done || (unfold valid_status; lia)).
  by erewrite write_bytes_sent by (cbn [rw_sent]; reflexivity).
Qed.

Lemma header_add_lookup w k v j :
  rw_header (header_add w k v) !! j =
  if decide (canonical_key k = j) then Some (default [] (rw_header w !! j) ++ [v]) else rw_header w !! j.
Proof.
  unfold header_add, headers. cbn [rw_header]. rewrite vadd_lookup.
  destruct (seqb (canonical_key k) j) eqn:E.
  - apply seqb_true in E. by rewrite decide_True.
  - apply seqb_false in E. by rewrite decide_False.
Qed.

Lemma redirect_headers_lookup w loc k :
  rw_header (redirect_headers w loc) !! k =
  if decide (k = "Referrer-Policy") then Some ["origin"]
  else if decide (k = "Pragma") then Some ["no-cache"]
  else if decide (k = "Cache-Control") then Some ["no-store"]
  else if decide (k = "Location") then Some (default [] (rw_header w !! "Location") ++ [loc])
  else rw_header w !! k.
Proof.
  unfold redirect_headers. rewrite !header_set_lookup, header_add_lookup.
  change (canonical_key "Location") with "Location".
  change (canonical_key "Cache-Control") with "Cache-Control".
  change (canonical_key "Pragma") with "Pragma".
  change (canonical_key "Referrer-Policy") with "Referrer-Policy".
  destruct (decide (k = "Referrer-Policy")) as [->|]; [reflexivity|].
  destruct (decide (k = "Pragma")) as [->|]; [reflexivity|].
  destruct (decide (k = "Cache-Control")) as [->|]; [reflexivity|].
  destruct (decide (k = "Location")) as [->|]; [reflexivity|].
  by rewrite !decide_False by congruence.
Qed.
