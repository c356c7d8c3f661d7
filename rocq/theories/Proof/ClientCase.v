(** Concrete cases for the theorems about clients. *)
From Coq Require Import QArith ZifyBool.
From Verif.Model Require Import Server Client History.
From Verif.Spec Require Import ScopeSpec WireSpec RequestSpec ServerSpec HistorySpec ClientSpec Cases HistoryCases ClientCases.
From Verif.Proof Require Import StrFacts ScopeProofs Redirect WireProofs HistoryCase.

#[local] Opaque handle parse_token.

Ltac utf8 := apply ascii_utf8; vm_compute; reflexivity.
Lemma good_items l : items (parse_scope (scope_string (Some l))) = l -> Forall good_item l.
Proof. intros H. by apply (c08_proof (Some l)). Qed.
Lemma case_token_texts : token_texts case_token_response.
Proof.
  unfold token_texts, scope_text, int64. cbn. split_and!; try utf8; try lia.
  - apply good_items. vm_compute. reflexivity.
  - repeat constructor; utf8.
Qed.
Lemma case_digits s : forallb (fun a => (48 <=? N_of_ascii a)%N && (N_of_ascii a <=? 57)%N) (list_ascii_of_string s) = true -> s <> "" -> decimal_digits s.
Proof. intros H Hs. split; [done|]. rewrite forallb_forall in H. intros a Ha. specialize (H a Ha). unfold decimal_digit. lia. Qed.
Lemma case_number : number "-1.5e+3" (-1500).
Proof.
  exists "-", "1", ".5", "5", "e+3", 3%Z. split_and!; try done.
  - by right; left.
  - right. split; [by apply case_digits|done].
  - right. split; [by apply case_digits|done].
  - right. exists "e"%char, "+", "3". split_and!; [by left|by right; left|by apply case_digits|done|done].
Qed.
Lemma case_extra : go_map_value float_literal (ir_extra case_introspection).
Proof.
  unfold go_map_value. cbn. apply go_object.
  - repeat constructor; try done; vm_compute; try reflexivity; discriminate.
  - repeat constructor; cbn [fst snd]; try utf8; try done.
    exists (-1500)%Q. split; [exact case_number|]. split; [vm_compute; reflexivity|vm_compute; discriminate].
Qed.
Lemma case_introspection_texts : introspection_texts case_introspection.
Proof.
  pose proof case_extra. unfold introspection_texts, introspection_texts_with, scope_text, int64. split_and!; try (cbn; utf8); try (cbn; lia); try done.
  - apply good_items. vm_compute. reflexivity.
  - repeat constructor; utf8.
Qed.
Lemma case_extra_texts (num : string -> Prop) extra : go_value num (JObj extra) -> (nesting (JObj extra) < 10000)%N ->
  introspection_texts_with num (case_introspection_extra extra).
Proof.
  intros Hx Hn. unfold introspection_texts_with, scope_text, int64. split_and!; try (cbn; utf8); try (cbn; lia); try done.
  - apply good_items. vm_compute. reflexivity.
  - repeat constructor; utf8.
Qed.
Lemma case_exact_texts : introspection_texts_with exact_literal
  (case_introspection_extra [("a", JNum "9007199254740992"); ("b", JArr [JNum "-0.5"; JNum "1e+21"])]).
Proof.
  apply case_extra_texts; [|done]. apply go_object.
  - repeat constructor; try done; vm_compute; try reflexivity; discriminate.
  - apply List.Forall_cons; [|apply List.Forall_cons; [|apply List.Forall_nil]]; cbn [fst snd]; (split; [utf8|]).
    + apply go_number. left. exists 9007199254740992%Z. split; [lia|]. vm_compute. reflexivity.
    + apply go_slice. apply List.Forall_cons; [|apply List.Forall_cons; [|apply List.Forall_nil]]; apply go_number; right.
      * exists {| f_neg := true; f_mant := 2 ^ 52; f_index := 1021 |}. split; [unfold float_ok; cbn; lia|]. vm_compute. reflexivity.
      * exists {| f_neg := false; f_mant := 7629394531250000; f_index := 1091 |}. split; [unfold float_ok; cbn; lia|]. vm_compute. reflexivity.
Qed.
Lemma case_huge : number "1e400" (inject_Z (10 ^ 400)).
Proof.
  exists "", "1", "", "", "e400", 400%Z. split_and!; try done.
  - by left.
  - right. split; [by apply case_digits|done].
  - by left.
  - right. exists "e"%char, "", "400". split_and!; [by left|by left|by apply case_digits|done|done].
Qed.
Lemma case_huge_range : ~ float_range (inject_Z (10 ^ 400)).
Proof. unfold float_range. vm_compute. discriminate. Qed.
Lemma case_huge_texts : introspection_texts_with short_literal (case_introspection_extra [("a", JArr [JNum "1e400"])]).
Proof.
  apply case_extra_texts; [|done]. apply go_object.
  - repeat constructor.
  - repeat constructor; cbn [fst snd]; try utf8.
    + by exists (inject_Z (10 ^ 400)); apply case_huge.
    + vm_compute. discriminate.
Qed.
Lemma c71_rounded : exists r w rs r', introspection_texts r /\ ir_extra r = Some [("n", JNum (itoa (2 ^ 53 + 1)))] /\
  write_introspection_response new_rw r = Some (w, true) /\ received w = Some rs /\
  parse_introspection_response rs 2048 = Some r' /\ ir_extra r' = Some [("n", JNum (itoa (2 ^ 53)))].
Proof.
  exists (case_introspection_extra [("n", JNum (itoa (2 ^ 53 + 1)))]). eexists _, _, _. split.
  - apply case_extra_texts; [|done]. apply go_object; repeat constructor; cbn [fst snd]; try utf8.
    exists (inject_Z (2 ^ 53 + 1)). split; [|split; [vm_compute; reflexivity|vm_compute; discriminate]].
    exists "", (itoa (2 ^ 53 + 1)), "", "", "", 0%Z. split; [by left|]. split; [|split; [by left|split; [by left|split; [reflexivity|vm_compute; reflexivity]]]].
    right. split; [|vm_compute; discriminate]. apply case_digits; vm_compute; [reflexivity|discriminate].
  - split; [reflexivity|]. split; [vm_compute; reflexivity|]. split; [vm_compute; reflexivity|]. split; [vm_compute; reflexivity|]. vm_compute. reflexivity.
Qed.
Lemma case_error_texts : error_texts case_error.
Proof.
  unfold error_texts, error_fields_utf8. cbn. split_and!; try utf8.
  - repeat constructor; utf8.
  - apply good_items. vm_compute. reflexivity.
Qed.

Lemma case_config_texts : config_texts case_config.
Proof.
  split; [split|].
  - apply good_items. vm_compute. reflexivity.
  - repeat constructor; utf8.
  - unfold int64. vm_compute. split; discriminate.
Qed.
Lemma case_token_expressible : expressible_token case_token_query.
Proof.
  unfold expressible_token. split_and!; try done.
  - apply without_contains. reflexivity.
  - apply good_items. vm_compute. reflexivity.
  - by left.
Qed.
Lemma case_leads name : In name ["token"; "introspect"; "revoke"] -> leads_to ("https://s.example" +:+ "/oauth2/" +:+ name) name.
Proof.
  intros H. unfold leads_to.
  destruct H as [<-|[<-|[<-|[]]]]; eexists _, "/oauth2"; (split; [vm_compute; reflexivity|]); (split; [reflexivity|]); eexists; reflexivity.
Qed.
Lemma case_fits ev s c r : (match snd (serve_http ev s r new_rw) with Some w => (Z.of_nat (slen (rw_body w)) <=? cc_response_limit c)%Z | None => true end) = true ->
  answer_fits ev s c r.
Proof. intros H s' w Hs. rewrite Hs in H. unfold fits. cbn [snd] in H. lia. Qed.
Lemma case_token_call : exists r, token_call (case_env 1000 (rand1 +:+ rand2)) case_server case_client_config case_token_query r.
Proof.
  eexists. split; [vm_compute; reflexivity|]. split; [exact (case_leads "token" (or_introl eq_refl))|].
  split; [exact case_token_expressible|]. split; [vm_compute; discriminate|]. apply case_fits. vm_compute. reflexivity.
Qed.
Lemma case_lookup_expressible : expressible_lookup case_lookup_query.
Proof.
  unfold expressible_lookup. split; [exact fact2|]. split; [done|]. split; [apply without_contains; reflexivity|]. by right; left.
Qed.
Lemma case_introspection_call : exists r, introspection_call (case_env 1002 rand3) (after step2) case_client_config case_lookup_query r.
Proof.
  eexists. split; [vm_compute; reflexivity|]. split; [exact (case_leads "introspect" (or_intror (or_introl eq_refl)))|].
  split; [exact case_lookup_expressible|]. split; [vm_compute; discriminate|]. apply case_fits. vm_compute. reflexivity.
Qed.
Lemma case_revocation_call : exists r, revocation_call (case_env 1002 rand3) (after step2) case_client_config case_lookup_query r.
Proof.
  eexists. split; [vm_compute; reflexivity|]. split; [exact (case_leads "revoke" (or_intror (or_intror (or_introl eq_refl))))|].
  split; [exact case_lookup_expressible|]. split; [vm_compute; discriminate|]. apply case_fits. vm_compute. reflexivity.
Qed.
Definition text_ok (kc : string * credential) : bool :=
  all_bytes (fun a => (ord a <? 128)%N) (cd_client_id (snd kc)) && all_bytes (fun a => (ord a <? 128)%N) (cd_username (snd kc)) &&
  ((-9223372036854775808 <=? cd_expires_at (snd kc) / 1000000000) && (cd_expires_at (snd kc) / 1000000000 <=? 9223372036854775807))%Z.
Lemma texts_ok s : forallb text_ok (map_to_list (sv_access s) ++ map_to_list (sv_refresh s)) = true -> credential_texts s.
Proof.
  intros H k c Hk. rewrite forallb_forall in H. specialize (H (k, c)).
  assert (Hin : In (k, c) (map_to_list (sv_access s) ++ map_to_list (sv_refresh s))).
  { apply in_or_app. rewrite <- !elem_of_list_In, !elem_of_map_to_list. exact Hk. }
  specialize (H Hin). unfold text_ok in H. cbn [snd] in H. rewrite !andb_true_iff in H. destruct H as [[H1 H2] [H3 H4]].
  split; [by apply ascii_utf8|]. split; [by apply ascii_utf8|]. unfold int64. lia.
Qed.
Lemma case_credential_texts : credential_texts (after step2).
Proof. apply texts_ok. vm_compute. reflexivity. Qed.
