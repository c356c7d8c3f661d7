(** Proofs about the grammar of answers (C97). *)
From Verif.Model Require Import Server History.
From Verif.Spec Require Import TokenSpec ScopeSpec WireSpec RequestSpec ServerSpec RefusalSpec HistorySpec ClientSpec GrammarSpec.
From Verif.Proof Require Import StrFacts Base64Facts HsFacts JsonFacts ScopeProofs WireFacts ServerFacts Steps RequestProofs
  ServerProofs GrantProofs EffectProofs HistoryFacts HistoryProofs CodecFacts CodecProofs ClientProofs RefusalProofs.

#[local] Opaque handle parse_token.

(** ** Characters *)
Definition between (lo hi : N) (c : ascii) : bool := ((lo <=? N_of_ascii c) && (N_of_ascii c <=? hi))%N.
Definition error_byte (c : ascii) : bool := between 32 33 c || between 35 91 c || between 93 126 c.
Definition b64_byte (c : ascii) : bool :=
  between 65 90 c || between 97 122 c || between 48 57 c || existsb (Ascii.eqb c) ["-"; "."; "_"; "~"; "+"; "/"]%char.
Lemma between_spec lo hi c : between lo hi c = true <-> code_between lo hi c.
Proof. unfold between, code_between. rewrite andb_true_iff, !N.leb_le. done. Qed.
Lemma error_byte_spec c : error_byte c = true <-> error_char c.
Proof. unfold error_byte, error_char. rewrite !orb_true_iff, !between_spec. tauto. Qed.
Lemma b64_byte_spec c : b64_byte c = true <-> b64_char c.
Proof.
  unfold b64_byte, b64_char. rewrite !orb_true_iff, !between_spec, existsb_exists. split.
  - intros [[[?|?]|?]|(x & Hx & E)]; auto. apply Ascii.eqb_eq in E as ->. auto.
  - intros [?|[?|[?|Hx]]]; auto. right. exists c. split; [done|apply Ascii.eqb_refl].
Qed.
Lemma within_bytes (p : ascii -> bool) (ok : ascii -> Prop) str : (forall c, p c = true <-> ok c) ->
  all_bytes p str = true <-> made_of ok str.
Proof.
  intros H. unfold made_of. induction str as [|a str IH]; cbn [all_bytes list_ascii_of_string In]; [by split|].
  rewrite andb_true_iff, IH. split.
  - intros [H1 H2] c [<-|Hc]; [by apply H|auto].
  - intros Hc. split; [apply H; auto|auto].
Qed.
Lemma within_impl (p q : ascii -> Prop) str : (forall c, p c -> q c) -> made_of p str -> made_of q str.
Proof. unfold made_of. auto. Qed.

(** ** Tokens *)
Lemma token_string_b64 a : b64token (token_string a).
Proof.
  exists (token_string a), "". split; [by rewrite app_nil_r_s|]. split.
  - unfold token_string. destruct (key_string a); discriminate.
  - split; [|by intros c []]. apply (within_bytes b64_byte _ _ b64_byte_spec).
    unfold token_string, key_string, signature_string, rawurl_encode. rewrite !all_bytes_app.
    rewrite !andb_true_iff. split_and!; try done; apply Base64Facts.encode_all_bytes; try done; vm_compute; reflexivity.
Qed.
Lemma c97_tokens : forall ev s r s' t, handle ev s r = Done s' (OToken t) ->
  tr_token_type t = "bearer" /\ b64token (tr_access_token t) /\ (tr_refresh_token t = "" \/ b64token (tr_refresh_token t)).
Proof.
  intros ev s r s' t Hh. apply token_answer_cases in Hh as (t0 & client & owner & code & (Ha & Hr & Hsc & He & Hty) & Hi).
  rewrite Ha, Hr, Hty. destruct Hi as [(s1 & (a & src & f & src' & _ & _ & -> & _) & _)|(a & src & _ & -> & _)];
    cbn [tr_token_type tr_access_token tr_refresh_token]; auto using token_string_b64.
Qed.
Lemma c97_codes : forall ev s r s' c, handle ev s r = Done s' (OCode c) -> b64token (cr_code c).
Proof. intros ev s r s' c Hh. apply handled_of in Hh. inversion Hh; subst. cbn. apply token_string_b64. Qed.

(** ** Errors *)
Definition clean (e : error) : Prop :=
  e_name e <> "" /\ all_bytes error_byte (e_name e) = true /\ all_bytes error_byte (e_description e) = true.
Lemma clean_of d : all_bytes error_byte d = true ->
  clean (InvalidRequest d) /\ clean (InvalidClient d) /\ clean (InvalidGrant d) /\ clean (InvalidScope d) /\
  clean (AccessDenied d) /\ clean (UnsupportedTokenType d).
Proof. intros H. unfold clean. cbn. split_and!; done. Qed.
Transparent parse_token.
Lemma clean_message secret str msg : parse_token secret str = inr msg -> all_bytes error_byte msg = true.
Proof. unfold parse_token. intros H. cbv zeta in H. split_match H; injection H as <-; reflexivity. Qed.
#[local] Opaque parse_token.
Ltac cl := first [ assumption | apply clean_of; first [reflexivity | eapply clean_message; eassumption] ].
Lemma clean_redirect e u st f : clean e -> clean (set_error_redirect e u st f).
Proof. done. Qed.
Lemma clean_authorization r e : parse_authorization_request r = inr e -> clean e.
Proof. unfold parse_authorization_request. intros H. split_match H; injection H as <-; cl. Qed.
Lemma clean_token r e : parse_token_request r = inr e -> clean e.
Proof.
  unfold parse_token_request. intros H. cbv zeta in H. split_match H; try (injection H as <-; cl).
  all: destruct (basic_auth r) as [[]|]; split_match H; injection H as <-; cl.
Qed.
Lemma clean_lookup r e : parse_lookup_request r = inr e -> clean e.
Proof. unfold parse_lookup_request. intros H. cbv zeta in H. split_match H; injection H as <-; cl. Qed.
Lemma clean_prologue s r e : lookup_prologue s r = inr e -> clean e.
Proof.
  unfold lookup_prologue. destruct (parse_lookup_request r) eqn:E; intros H; [|injection H as <-; eauto using clean_lookup].
  split_match H; injection H as <-; cl.
Qed.
Lemma clean_handle ev s r s' e : handle ev s r = Done s' (OError e) -> clean e.
Proof.
  Transparent handle. unfold handle. cbv zeta. intros H.
  destruct (seqb (last_segment (rq_path r)) "authorize").
  { unfold authorization_endpoint in H. destruct (parse_authorization_request r) as [q|e'] eqn:E; [|injection H as _ <-; by eapply clean_authorization].
    unfold handle_implicit, handle_code_authorization in H. cbv zeta in H. split_match H; try discriminate H; injection H as _ <-;
      try apply clean_redirect; cl. }
  destruct (seqb (last_segment (rq_path r)) "token").
  { unfold token_endpoint in H. destruct (parse_token_request r) as [q|e'] eqn:E; [|injection H as _ <-; by eapply clean_token].
    unfold handle_password, handle_client_credentials, handle_code, handle_refresh in H. cbv zeta in H.
    split_match H; try discriminate H; injection H as _ <-; cl. }
  destruct (seqb (last_segment (rq_path r)) "introspect").
  { unfold introspection_endpoint in H. destruct (lookup_prologue s r) as [[q t]|e'] eqn:E; [|injection H as _ <-; by eapply clean_prologue].
    cbv zeta in H. destruct (sv_access s !! signature_string t) as [c|] eqn:Ea.
    - destruct (negb (seqb (cd_client_id c) (lq_client_id q))); split_match H; try discriminate H; injection H as _ <-; cl.
    - split_match H; try discriminate H; injection H as _ <-; cl. }
  destruct (seqb (last_segment (rq_path r)) "revoke").
  { unfold revocation_endpoint in H. destruct (lookup_prologue s r) as [[q t]|e'] eqn:E; [|injection H as _ <-; by eapply clean_prologue].
    cbv zeta in H. destruct (sv_access s !! signature_string t) as [c|] eqn:Ea.
    - destruct (negb (seqb (cd_client_id c) (lq_client_id q))); split_match H; try discriminate H; injection H as _ <-; cl.
    - split_match H; try discriminate H; injection H as _ <-; cl. }
  discriminate H.
Qed.
#[local] Opaque handle.
Lemma c97_errors : forall ev s r s' e, handle ev s r = Done s' (OError e) ->
  e_name e <> "" /\ made_of error_char (e_name e) /\ made_of error_char (e_description e) /\ e_uri e = "" /\ e_realm e = "" /\ e_scope e = None.
Proof.
  intros ev s r s' e Hh. destruct (clean_handle _ _ _ _ _ Hh) as (H1 & H2 & H3).
  split; [done|]. split; [by apply (within_bytes error_byte _ _ error_byte_spec)|].
  split; [by apply (within_bytes error_byte _ _ error_byte_spec)|].
  apply handle_answer in Hh. inversion Hh; subst.
  - match goal with A : plain_error _ |- _ => destruct A as (d & _ & [-> | [-> | [-> | [-> | [-> | ->]]]]]); done end.
  - match goal with A : redirect_error _ _ |- _ => destruct A as (b & [-> | ->] & ->); done end.
Qed.

(** ** Scopes *)
Lemma covered_tokens a b : Forall scope_token (items a) -> covers a b -> Forall scope_token (items b).
Proof.
  intros H1 H. rewrite Forall_forall in H1. apply Forall_forall; intros x Hx; apply elem_of_list_In in Hx.
  apply H1. apply elem_of_list_In. by apply H.
Qed.
Lemma scope_value_string sc : Forall scope_token (items sc) -> items sc <> [] -> scope_value (scope_string sc).
Proof. intros H1 H2. exists (items sc). done. Qed.
Lemma c97_scopes : forall cfg l s, history cfg l s -> grammatical_config cfg ->
  (forall ev r s' t, handle ev s r = Done s' (OToken t) -> Forall scope_token (items (tr_scope t))) /\
  (forall ev r s' i, handle ev s r = Done s' (OIntro i) -> Forall scope_token (items (ir_scope i))).
Proof.
  intros cfg l s H Hg. pose proof (history_config _ _ _ H) as Hc. split.
  - intros ev r s' t Hh. eapply covered_tokens; [exact Hg|]. rewrite <- Hc.
    eapply (within_step ev s r); [by eapply all_within_history|exact Hh].
  - intros ev r s' i Hh. apply c47_discloses in Hh as [->|(c & kind & _ & Hs & Hk)]; [constructor|].
    replace (ir_scope i) with (cd_scope c) by (destruct Hs; intuition congruence). eapply covered_tokens; [exact Hg|].
    destruct Hk as [[_ (k & _ & Hk)]|[_ (k & _ & Hk)]]; eapply (c31_scopes cfg l s k); eauto.
Qed.

(** ** Documents *)
Lemma scope_token_utf8 x : scope_token x -> valid_utf8 x.
Proof.
  intros [_ H]. apply valid_utf8_ascii. apply (within_bytes _ (fun c => (N_of_ascii c < 128)%N)).
  - intros c. unfold ord. apply N.ltb_lt.
  - eapply within_impl; [|exact H]. unfold scope_char, code_between. intros c. lia.
Qed.
Lemma error_members e o k x w : plain_error e -> clean e -> write_outcome new_rw (OError e) = Some w -> json_object w o ->
  In (k, JStr x) o -> grammatical_member k x.
Proof.
  intros Hp (H1 & H2 & H3) Hw [Ho _] Hin. destruct (write_plain e Hp) as (w' & Hw' & _ & _ & _ & Hj & _).
  rewrite Hw in Hw'. injection Hw' as <-. rewrite Ho in Hj. injection Hj as ->.
  assert (Hc : (k = "error" /\ x = e_name e) \/ (k = "error_description" /\ x = e_description e /\ x <> "")).
  { destruct Hin as [Hin|Hin]; [injection Hin as <- <-; auto|]. unfold omit_string in Hin.
    destruct (seqb (e_description e) "") eqn:E; [destruct Hin|]. destruct Hin as [Hin|[]]. injection Hin as <- <-. apply seqb_false in E. auto. }
  destruct Hc as [[-> ->]|(-> & -> & Hne)]; (split; [intros _; split; [done|by apply (within_bytes error_byte _ _ error_byte_spec)]|]);
    (split; [intros [Hk|[Hk|[]]]; discriminate Hk|]); (split; intros Hk; discriminate Hk).
Qed.
Lemma b64_utf8 x : b64token x -> valid_utf8 x.
Proof.
  intros (body & pad & -> & _ & H1 & H2). apply valid_utf8_ascii. rewrite all_bytes_app, andb_true_iff. split.
  - eapply all_bytes_impl; [|by apply (within_bytes b64_byte _ _ b64_byte_spec)]. intros [[] [] [] [] [] [] [] []]; vm_compute; congruence.
  - apply (within_bytes _ (fun c => (N_of_ascii c < 128)%N)); [intros c; unfold ord; apply N.ltb_lt|].
    eapply within_impl; [|exact H2]. intros c ->. done.
Qed.
Lemma token_members t o k x : Forall scope_token (items (tr_scope t)) -> tr_state t = "" ->
  tr_token_type t = "bearer" /\ b64token (tr_access_token t) /\ (tr_refresh_token t = "" \/ b64token (tr_refresh_token t)) ->
  json_parse (json_encode (token_json t)) = Some (JObj o) ->
  In (k, JStr x) o -> grammatical_member k x.
Proof.
  intros Hsc Hst (Hty & Ha & Hr) Hj Hin. pose proof (b64_utf8 _ Ha) as Ua.
  assert (Ur : valid_utf8 (tr_refresh_token t)) by (destruct Hr as [-> |Hr]; [by apply valid_utf8_ascii|by apply b64_utf8]).
  assert (Hs : sendable (token_json t)).
  { apply sendable_obj. rewrite !Forall_app. split_and!.
    - rewrite Hty. repeat constructor; cbn [fst snd]; try (by apply valid_utf8_ascii); try done. all: apply num_ok_itoa.
    - apply omit_string_forall. intros _. split; [split; [by apply valid_utf8_ascii|done]|done].
    - apply omit_scope_forall. apply sendable_scope; [by apply valid_utf8_ascii|]. eapply Forall_impl; [exact Hsc|]. apply scope_token_utf8.
    - rewrite Hst. constructor. }
  destruct Hs as [Hs1 Hs2]. rewrite (json_roundtrip_nl _ Hs1 Hs2) in Hj.
  assert (Ho : token_json t = JObj o) by congruence. unfold token_json in Ho.
  apply (f_equal (fun j => match j with JObj l => l | _ => [] end)) in Ho. cbv beta iota in Ho. rewrite <- Ho in Hin.
  rewrite !in_app_iff in Hin.
  assert (Hc : (k = "token_type" /\ x = "bearer") \/ ((k = "access_token" \/ k = "refresh_token") /\ b64token x) \/ (k = "scope" /\ scope_value x)).
  { destruct Hin as [[Hin|[Hin|[Hin|[]]]]|[Hin|[Hin|Hin]]].
    - injection Hin as <- <-. auto.
    - injection Hin as <- <-. auto.
    - discriminate Hin.
    - unfold omit_string in Hin. destruct (seqb (tr_refresh_token t) "") eqn:E; [destruct Hin|]. destruct Hin as [Hin|[]].
      injection Hin as <- <-. apply seqb_false in E. destruct Hr as [Hr|Hr]; [done|auto].
    - unfold omit_scope in Hin. destruct (scope_empty (tr_scope t)) eqn:E; [destruct Hin|]. destruct Hin as [Hin|[]].
      injection Hin as <- <-. right. right. split; [done|]. apply scope_value_string; [done|].
      intros E0. unfold scope_empty in E. by rewrite E0 in E.
    - rewrite Hst in Hin. destruct Hin. }
  unfold grammatical_member. cbn [In].
  destruct Hc as [[-> ->]|[[[-> | ->] Hb]|[-> Hv]]]; (split; [intuition discriminate|]); (split; [intuition discriminate|]); (split; [intuition discriminate|intuition discriminate]).
Qed.
Lemma c97_documents : forall cfg l s ev r w o k x, history cfg l s -> grammatical_config cfg -> endpoint r "token" ->
  serves ev s r w -> json_object w o -> In (k, JStr x) o -> grammatical_member k x.
Proof.
  intros cfg l s ev r w o k x H Hg He [s' Hw] Ho Hin. unfold serve_http in Hw. destruct (handle ev s r) as [s1 out|s1] eqn:Hh; [|done].
  injection Hw as <- Hw. assert (Hh' := Hh). rewrite handle_token in Hh' by done. apply token_answer in Hh' as [(e & -> & Hp)|(t & -> & Hu & Hst)].
  - eapply error_members; eauto using clean_handle.
  - unfold write_outcome, write_token_response in Hw. rewrite Hu in Hw. change (negb (seqb "" "")) with false in Hw. cbv iota in Hw.
    rewrite write_document in Hw. injection Hw as <-. destruct Ho as [Ho _]. cbn [rw_body sent_document] in Ho.
    destruct (c97_scopes cfg l s H Hg) as [Hs _]. pose proof (c97_tokens _ _ _ _ _ Hh) as Ht.
    eapply (token_members t); eauto.
Qed.
Lemma c97_error_documents : forall ev s r w o k x code name, serves ev s r w -> error_document w code name -> code <> 200%Z ->
  json_object w o -> In (k, JStr x) o -> grammatical_member k x.
Proof.
  intros ev s r w o k x code name Hw (Hst & Hl & _) Hc Ho Hin. destruct (answer_decided ev s r w Hw) as [?|[?|[(n & Hd & _)|(s' & Hh)]]];
    [congruence|congruence| |].
  - destruct Hd as (s' & e & Hh & Hp & _). destruct Hw as [s1 Hw]. unfold serve_http in Hw. rewrite Hh in Hw. injection Hw as <- Hw.
    eapply error_members; eauto using clean_handle.
  - destruct Hw as [s1 Hw]. destruct (serve_sent _ _ _ _ _ Hw) as (out & Hh' & _ & Ho'). rewrite Hh in Hh'. injection Hh' as <- <-.
    inversion Ho'; subst. destruct Ho as [Ho _]. vm_compute in Ho. discriminate Ho.
Qed.
