(** Proofs about response writers of any behaviour. *)
From Verif.Model Require Import Writer.
From Verif.Spec Require Import WireSpec WriterSpec.
From Verif.Proof Require Import StrFacts UrlFacts WireFacts WireProofs Redirect ServerFacts ServerProofs GrantProofs EffectProofs.

(** ** Sequences of calls *)
Definition to_option (e : wend) : option bool :=
  match e with Fine => Some true | Failed => Some false | Panics => None end.
Definition acts {W} (wr : writer W) (l : list wcall) : wact W bool := fun w =>
  (fst (play wr w l), to_option (snd (play wr w l))).

Lemma acts_one {W} (wr : writer W) c w : wdo wr c w = acts wr [c] w.
Proof. unfold wdo, acts. cbn [play]. by destruct (wr w c) as [w' []]. Qed.
Lemma acts_cons {W} (wr : writer W) c d l w : wbind (wdo wr c) (fun _ => acts wr (d :: l)) w = acts wr (c :: d :: l) w.
Proof.
  unfold wbind, wdo, acts. cbn [play]. destruct (wr w c) as [w' []]; [done|done|done].
Qed.
Lemma wbind_ext {W A B} (m : wact W A) (f g : A -> wact W B) w : (forall a w', f a w' = g a w') -> wbind m f w = wbind m g w.
Proof. intros H. unfold wbind. destruct (m w) as [w' [a|]]; [apply H|done]. Qed.
Lemma acts_bind {W} (wr : writer W) c d l (m : wact W bool) w : (forall w, m w = acts wr (d :: l) w) ->
  wbind (wdo wr c) (fun _ => m) w = acts wr (c :: d :: l) w.
Proof. intros H. rewrite (wbind_ext _ _ (fun _ => acts wr (d :: l))) by (intros; apply H). apply acts_cons. Qed.

Lemma sends_acts f l : sends f l <-> forall W (wr : writer W) w, f W wr w = acts wr l w.
Proof. split; intros H W wr w; rewrite H; unfold acts; done. Qed.

Ltac do_calls := intros ?; repeat (apply acts_bind; intros ?); apply acts_one.

Ltac hdrs := repeat (apply List.Forall_cons; [first [left; by eauto|right; by eauto]|]); apply List.Forall_nil.
Definition json_calls (j : json) (status : Z) : list wcall :=
  [SetHeader "Content-Type" "application/json;charset=UTF-8"; SetHeader "Cache-Control" "no-store";
   SetHeader "Pragma" "no-cache"; WriteHeader status; WriteBody (json_encode j)].
Definition redirect_calls (loc : string) : list wcall :=
  [AddHeader "Location" loc; SetHeader "Cache-Control" "no-store"; SetHeader "Pragma" "no-cache";
   SetHeader "Referrer-Policy" "origin"; WriteHeader 303; WriteBody ""].
Lemma write_acts {W} (wr : writer W) j status w : write_on wr j status w = acts wr (json_calls j status) w.
Proof. unfold write_on, json_calls. revert w. do_calls. Qed.
Lemma redirect_acts {W} (wr : writer W) uri params frag loc w : redirect_location uri params frag = Some loc ->
  write_redirect_on wr uri params frag w = acts wr (redirect_calls loc) w.
Proof. intros H. unfold write_redirect_on. rewrite H. revert w. do_calls. Qed.

Definition header_calls (order : list (string * string)) : list wcall := map (fun kv => SetHeader (fst kv) (snd kv)) order.
Lemma header_calls_set order : Forall sets_header (header_calls order).
Proof. induction order as [|kv order IH]; constructor; [|done]. left. eauto. Qed.
Lemma set_headers_acts {W} (wr : writer W) order d l (m : wact W bool) w : (forall w, m w = acts wr (d :: l) w) ->
  wbind (set_headers_on wr order) (fun _ => m) w = acts wr (header_calls order ++ d :: l) w.
Proof.
  intros H. revert w. induction order as [|kv order IH]; intros w; cbn [set_headers_on header_calls map app].
  { cbn. rewrite <- H. done. }
  assert (E : exists e t, header_calls order ++ d :: l = e :: t) by (destruct order; cbn; eauto). destruct E as (e & t & E).
  fold (header_calls order). rewrite E in *. rewrite <- (acts_bind wr _ e t (wbind (set_headers_on wr order) (fun _ => m))) by (intros; by rewrite IH).
  unfold wbind. destruct (wdo wr _ w) as [w' [b|]]; done.
Qed.
(** Without anything after them. *)
Lemma set_headers_end {W} (wr : writer W) order (m : wact W bool) w : (forall w, m w = (w, Some false)) ->
  wbind (set_headers_on wr order) (fun _ => m) w =
  (fst (play wr w (header_calls order)), match snd (play wr w (header_calls order)) with Panics => None | _ => Some false end).
Proof.
  intros H. revert w. induction order as [|kv order IH]; intros w; cbn [set_headers_on header_calls map].
  { cbn. by rewrite H. }
  unfold wbind in *. unfold wdo. fold (header_calls order). cbn [play].
  destruct (wr w (SetHeader kv.1 kv.2)) as [w' e] eqn:E.
  destruct e.
  - specialize (IH w'). destruct order as [|kv2 order]; [cbn; by rewrite H|].
    cbn [header_calls map] in *. exact IH.
  - specialize (IH w'). destruct order as [|kv2 order]; [cbn; by rewrite H|].
    cbn [header_calls map] in *. exact IH.
  - done.
Qed.

Definition error_calls (e : error) (loc : option string) : list wcall :=
  header_calls (map_to_list (e_headers e)) ++
  match loc with Some loc => redirect_calls loc | None => json_calls (error_json e) (e_status e) end.
Lemma error_acts_document {W} (wr : writer W) e w : e_redirect_uri e = "" ->
  write_error_on wr (GErr e) w = acts wr (error_calls e None) w.
Proof.
  intros H. unfold write_error_on, write_error_order_on. rewrite H. change (negb (seqb "" "")) with false. cbv iota.
  apply set_headers_acts. intros w'. apply write_acts.
Qed.
Lemma error_acts_redirect {W} (wr : writer W) e loc w : e_redirect_uri e <> "" ->
  redirect_location (e_redirect_uri e) (error_map e) (e_use_fragment e) = Some loc ->
  write_error_on wr (GErr e) w = acts wr (error_calls e (Some loc)) w.
Proof.
  intros H Hl. unfold write_error_on, write_error_order_on. rewrite (proj2 (seqb_false _ _) H). cbn [negb].
  apply set_headers_acts. intros w'. by apply redirect_acts.
Qed.

Lemma json_calls_whole hs j status : Forall sets_header hs -> (100 <= status <= 999)%Z -> one_answer (hs ++ json_calls j status).
Proof.
  intros H Hs. exists (hs ++ [SetHeader "Content-Type" "application/json;charset=UTF-8"; SetHeader "Cache-Control" "no-store"; SetHeader "Pragma" "no-cache"]), status, (json_encode j).
  split; [|split; [done|by rewrite <- app_assoc]]. apply Forall_app. split; [done|]. hdrs.
Qed.
Lemma redirect_calls_whole hs loc : Forall sets_header hs -> one_answer (hs ++ redirect_calls loc).
Proof.
  intros H. exists (hs ++ [AddHeader "Location" loc; SetHeader "Cache-Control" "no-store"; SetHeader "Pragma" "no-cache"; SetHeader "Referrer-Policy" "origin"]), 303%Z, "".
  split; [|split; [lia|by rewrite <- app_assoc]]. apply Forall_app. split; [done|].
  hdrs.
Qed.

(** ** The functions that write *)
Lemma c80_write : forall obj status, (100 <= status <= 999)%Z ->
  exists calls, one_answer calls /\ sends (fun W wr => write_on wr obj status) calls.
Proof.
  intros obj status H. exists (json_calls obj status). split; [by apply (json_calls_whole [])|]. apply sends_acts. intros. apply write_acts.
Qed.
Lemma gives_up_at_once : gives_up (fun W _ => wret false).
Proof. exists []. split; [constructor|]. done. Qed.
Lemma redirect_location_none uri params frag : parse_request_uri uri = None -> redirect_location uri params frag = None.
Proof. intros H. unfold redirect_location, redirect_location_order. by rewrite H. Qed.
Lemma c80_redirect : forall uri params fragment,
  (is_Some (parse_request_uri uri) ->
   exists calls, one_answer calls /\ sends (fun W wr => write_redirect_on wr uri params fragment) calls) /\
  (parse_request_uri uri = None -> gives_up (fun W wr => write_redirect_on wr uri params fragment)).
Proof.
  intros uri params fragment. split; intros H.
  - destruct (redirect_location_some uri params fragment H) as [loc Hl]. exists (redirect_calls loc).
    split; [by apply (redirect_calls_whole [])|]. apply sends_acts. intros. by apply redirect_acts.
  - exists []. split; [constructor|]. intros W wr w. unfold write_redirect_on. by rewrite redirect_location_none.
Qed.
Lemma c80_error : forall e,
  (e_redirect_uri e = "" -> (100 <= e_status e <= 999)%Z ->
   exists calls, one_answer calls /\ sends (fun W wr => write_error_on wr (GErr e)) calls) /\
  (e_redirect_uri e <> "" -> is_Some (parse_request_uri (e_redirect_uri e)) ->
   exists calls, one_answer calls /\ sends (fun W wr => write_error_on wr (GErr e)) calls) /\
  (e_redirect_uri e <> "" -> parse_request_uri (e_redirect_uri e) = None ->
   gives_up (fun W wr => write_error_on wr (GErr e))).
Proof.
  intros e. split_and!.
  - intros H Hs. exists (error_calls e None). split; [apply json_calls_whole; [apply header_calls_set|done]|].
    apply sends_acts. intros. by apply error_acts_document.
  - intros H Hu. destruct (redirect_location_some (e_redirect_uri e) (error_map e) (e_use_fragment e) Hu) as [loc Hl].
    exists (error_calls e (Some loc)). split; [apply redirect_calls_whole; apply header_calls_set|].
    apply sends_acts. intros. by apply error_acts_redirect.
  - intros H Hu. exists (header_calls (map_to_list (e_headers e))). split; [apply header_calls_set|]. intros W wr w.
    unfold write_error_on, write_error_order_on. rewrite (proj2 (seqb_false _ _) H). cbn [negb].
    apply set_headers_end. intros w'. unfold write_redirect_on. by rewrite redirect_location_none.
Qed.
Lemma c80_other_error : exists calls, one_answer calls /\ sends (fun W wr => write_error_on wr GOther) calls.
Proof. apply (proj1 (c80_error (ServerError ""))); [reflexivity|]. cbn. lia. Qed.
Lemma c80_token : forall r,
  (tr_redirect_uri r = "" \/ is_Some (parse_request_uri (tr_redirect_uri r)) ->
   exists calls, one_answer calls /\ sends (fun W wr => write_token_response_on wr r) calls) /\
  (tr_redirect_uri r <> "" -> parse_request_uri (tr_redirect_uri r) = None -> gives_up (fun W wr => write_token_response_on wr r)).
Proof.
  intros r. destruct (decide (tr_redirect_uri r = "")) as [E|E].
  - split; [|done]. intros _. destruct (c80_write (token_json r) 200) as (calls & Hc & Hs); [lia|]. exists calls. split; [done|].
    intros W wr w. unfold write_token_response_on. rewrite E. apply Hs.
  - destruct (c80_redirect (tr_redirect_uri r) (token_map r) true) as [H1 H2]. split.
    + intros [?|H]; [done|]. destruct (H1 H) as (calls & Hc & Hs). exists calls. split; [done|].
      intros W wr w. unfold write_token_response_on. rewrite (proj2 (seqb_false _ _) E). apply Hs.
    + intros _ H. destruct (H2 H) as (hs & Hh & Hs). exists hs. split; [done|].
      intros W wr w. unfold write_token_response_on. rewrite (proj2 (seqb_false _ _) E). apply Hs.
Qed.
Lemma c80_code : forall r,
  (is_Some (parse_request_uri (cr_redirect_uri r)) ->
   exists calls, one_answer calls /\ sends (fun W wr => write_code_response_on wr r) calls) /\
  (parse_request_uri (cr_redirect_uri r) = None -> gives_up (fun W wr => write_code_response_on wr r)).
Proof. intros r. apply c80_redirect. Qed.
Lemma c80_introspection : forall r,
  (ir_active r = false \/ In (ir_token_type r) ["access_token"; "refresh_token"] ->
   exists calls, one_answer calls /\ sends (fun W wr => write_introspection_response_on wr r) calls) /\
  (ir_active r = true -> ~ In (ir_token_type r) ["access_token"; "refresh_token"] ->
   gives_up (fun W wr => write_introspection_response_on wr r)).
Proof.
  intros r. assert (Hk : known_token_type (ir_token_type r) = true <-> In (ir_token_type r) ["access_token"; "refresh_token"]).
  { unfold known_token_type. rewrite orb_true_iff, !seqb_true. cbn. split; [intros [H|H]; rewrite H; tauto|intros [H|[H|[]]]; auto]. }
  split.
  - intros H. destruct (c80_write (introspection_json r) 200) as (calls & Hc & Hs); [lia|]. exists calls. split; [done|].
    intros W wr w. unfold write_introspection_response_on.
    assert (ir_active r && negb (known_token_type (ir_token_type r)) = false) as -> by (destruct H as [-> |H%Hk]; [done|rewrite H; by rewrite andb_false_r]).
    apply Hs.
  - intros Ha Hn. destruct gives_up_at_once as (hs & Hh & Hs). exists hs. split; [done|]. intros W wr w.
    unfold write_introspection_response_on. rewrite Ha.
    assert (known_token_type (ir_token_type r) = false) as -> by (apply not_true_is_false; by rewrite Hk). apply Hs.
Qed.
Lemma bearer_fallback : exists calls, one_answer calls /\
  forall W (wr : writer W) w, wbind (wdo wr (WriteHeader 500)) (fun _ => wdo wr (WriteBody "")) w = acts wr calls w.
Proof.
  exists [WriteHeader 500; WriteBody ""]. split; [exists [], 500%Z, ""; split; [constructor|split; [lia|done]]|]. intros W wr. do_calls.
Qed.
Lemma c80_bearer : forall err, (forall e, err = GErr e -> (100 <= e_status e <= 999)%Z) ->
  exists calls, one_answer calls /\ sends (fun W wr => write_bearer_error_on wr err) calls.
Proof.
  intros err H. destruct err as [e|]; unfold write_bearer_error_on; cbv zeta; cycle 1.
  { destruct bearer_fallback as (calls & Hc & Hs). exists calls. split; [done|]. by apply sends_acts. }
  destruct (e_status e =? 500)%Z.
  { destruct bearer_fallback as (calls & Hc & Hs). exists calls. split; [done|]. by apply sends_acts. }
  eexists [SetHeader "WWW-Authenticate" _; WriteHeader (e_status e); WriteBody ""]. split.
  - exists [SetHeader "WWW-Authenticate" ("Bearer " +:+ (if seqb (error_params e) "" then default_challenge else error_params e))], (e_status e), "".
    split; [|split; [by apply H|reflexivity]]. hdrs.
  - apply sends_acts. intros W wr. do_calls.
Qed.

(** ** The handlers *)
Definition outcome_on {W} (wr : writer W) (o : outcome) : wact W bool :=
  match o with
  | OError e => write_error_on wr (GErr e)
  | OToken r => write_token_response_on wr r
  | OCode r => write_code_response_on wr r
  | OIntro r => write_introspection_response_on wr r
  | ORevoked => wdo wr (WriteHeader 200)
  | ONotice => wdo wr (WriteBody notice)
  | ONotFound => not_found_on wr
  end.
Definition after_result {W} (wr : writer W) (x : result) (w : W) : server * W * option unit :=
  match x with
  | Done s' o => answer_with (outcome_on wr o) s' w
  | Panic s' => (s', w, None)
  end.

Ltac steps :=
  repeat (cbn [hbind hget hput]; unfold hbind, hget, hput; cbv beta iota zeta;
    match goal with
    | |- context [if ?c then _ else _] => destruct c; try reflexivity
    | |- context [match ?x with _ => _ end] => destruct x; try reflexivity
    end).

Lemma issue_refines {W} ev b sc id u c (k : token_response -> hact W unit) s w :
  issue_on ev b sc id u c k s w =
  match issue_tokens ev s b sc id u c with None => (s, w, None) | Some (s', r) => k r s' w end.
Proof. unfold issue_on, hbind, hget, hput. destruct (issue_tokens ev s b sc id u c) as [[s' r]|]; done. Qed.

Lemma implicit_refines {W} (wr : writer W) ev u p rq s w : implicit_on wr ev u p rq s w = after_result wr (handle_implicit ev s u p rq) w.
Proof.
  unfold implicit_on, handle_implicit. unfold hbind at 1. unfold hget. cbv beta iota.
  destruct (negb (scope_includes _ _)); [done|]. destruct (negb (owner_ok _ _ _)); [done|]. rewrite issue_refines.
  by destruct (issue_tokens _ _ _ _ _ _ _) as [[s' r]|].
Qed.
Lemma code_authorization_refines {W} (wr : writer W) ev u p rq s w :
  code_authorization_on wr ev u p rq s w = after_result wr (handle_code_authorization ev s u p rq) w.
Proof.
  unfold code_authorization_on, handle_code_authorization. unfold hbind at 1. unfold hget. cbv beta iota.
  destruct (negb (scope_includes _ _)); [done|]. destruct (negb (owner_ok _ _ _)); [done|].
  by destruct (cfg_must_generate _ _) as [[code ?]|].
Qed.
Lemma authorization_refines {W} (wr : writer W) ev r s w :
  authorization_on wr ev r s w = after_result wr (authorization_endpoint ev s r) w.
Proof.
  unfold authorization_on, authorization_endpoint. destruct (parse_authorization_request r) as [req|e]; [|done].
  destruct (negb (known_response_type _)); [done|]. unfold hbind at 1. unfold hget. cbv beta iota.
  destruct (sv_clients s !! _) as [client|]; [|done]. destruct (negb (seqb _ _)); [done|]. destruct (seqb (rq_method r) "GET"); [done|].
  cbv zeta. destruct (seqb _ TokenResponseType); [apply implicit_refines|apply code_authorization_refines].
Qed.
Lemma password_refines {W} (wr : writer W) ev rq s w : password_on wr ev rq s w = after_result wr (handle_password ev s rq) w.
Proof.
  unfold password_on, handle_password. unfold hbind at 1. unfold hget. cbv beta iota.
  destruct (negb (owner_ok _ _ _)); [done|]. destruct (negb (scope_includes _ _)); [done|]. rewrite issue_refines.
  by destruct (issue_tokens _ _ _ _ _ _ _) as [[s' r]|].
Qed.
Lemma client_credentials_refines {W} (wr : writer W) ev rq s w :
  client_credentials_on wr ev rq s w = after_result wr (handle_client_credentials ev s rq) w.
Proof.
  unfold client_credentials_on, handle_client_credentials. unfold hbind at 1. unfold hget. cbv beta iota.
  destruct (sv_clients s !! _) as [client|]; [|done].
  destruct (negb (en_confidential _)); [done|]. destruct (negb (scope_includes _ _)); [done|]. rewrite issue_refines.
  by destruct (issue_tokens _ _ _ _ _ _ _) as [[s' r]|].
Qed.
Lemma code_refines {W} (wr : writer W) ev rq s w : code_on wr ev rq s w = after_result wr (handle_code ev s rq) w.
Proof.
  unfold code_on, handle_code. unfold hbind at 1. unfold hget at 1. cbv beta iota.
  destruct (parse_token _ _) as [code|msg]; [|done]. cbv zeta. destruct (sv_codes s !! _) as [stored|]; [|done].
  destruct (cd_used stored); [done|]. destruct (cd_expires_at stored <? ev_now_check ev)%Z; [done|].
  destruct (negb (seqb (cd_client_id _) _)); [done|]. destruct (negb (seqb _ _)); [done|]. rewrite issue_refines.
  by destruct (issue_tokens _ _ _ _ _ _ _) as [[s' r]|].
Qed.
Lemma refresh_refines {W} (wr : writer W) ev rq s w : refresh_on wr ev rq s w = after_result wr (handle_refresh ev s rq) w.
Proof.
  unfold refresh_on, handle_refresh. unfold hbind at 1. unfold hget at 1. cbv beta iota.
  destruct (parse_token _ _) as [rt|msg]; [|done]. cbv zeta. destruct (sv_refresh s !! _) as [stored|]; [|done].
  destruct (cd_expires_at stored <? ev_now_check ev)%Z; [done|].
  destruct (negb (seqb (cd_client_id _) _)); [done|]. destruct (negb (scope_includes _ _)); [done|]. rewrite issue_refines.
  by destruct (issue_tokens _ _ _ _ _ _ _) as [[s' r]|].
Qed.
Lemma token_refines {W} (wr : writer W) ev r s w : token_on wr ev r s w = after_result wr (token_endpoint ev s r) w.
Proof.
  unfold token_on, token_endpoint. destruct (parse_token_request r) as [req|e]; [|done].
  destruct (negb (known_grant_type _)); [done|]. unfold hbind at 1. unfold hget. cbv beta iota.
  destruct (sv_clients s !! _) as [client|]; [|done]. destruct (negb (client_ok _ _)); [done|].
  destruct (seqb _ PasswordGrantType); [apply password_refines|]. destruct (seqb _ ClientCredentialsGrantType); [apply client_credentials_refines|].
  destruct (seqb _ AuthorizationCodeGrantType); [apply code_refines|apply refresh_refines].
Qed.
Lemma lookup_refines {W} (wr : writer W) r k s w :
  lookup_on wr r k s w =
  match lookup_prologue s r with inr e => reject wr e s w | inl (req, t) => k req t s w end.
Proof.
  unfold lookup_on, lookup_prologue. destruct (parse_lookup_request r) as [req|e]; [|done].
  destruct (negb (seqb _ "") && negb _); [done|]. unfold hbind at 1. unfold hget. cbv beta iota.
  destruct (sv_clients s !! _) as [client|]; [|done]. destruct (negb (client_ok _ _)); [done|].
  by destruct (parse_token _ _).
Qed.
Lemma revocation_refines {W} (wr : writer W) r s w : revocation_on wr r s w = after_result wr (revocation_endpoint s r) w.
Proof.
  unfold revocation_on, revocation_endpoint. rewrite lookup_refines. destruct (lookup_prologue s r) as [[req t]|e]; [|done].
  cbv zeta. unfold hbind, hget, hput. destruct (sv_access s !! _) as [a|].
  - destruct (negb (seqb (cd_client_id a) _)); [done|]. cbv beta iota. destruct (sv_refresh _ !! _) as [f|]; [|done].
    by destruct (negb (seqb (cd_client_id f) _)).
  - cbv beta iota. destruct (sv_refresh _ !! _) as [f|]; [|done]. by destruct (negb (seqb (cd_client_id f) _)).
Qed.
Lemma introspection_refines {W} (wr : writer W) r s w : introspection_on wr r s w = after_result wr (introspection_endpoint s r) w.
Proof.
  unfold introspection_on, introspection_endpoint. rewrite lookup_refines. destruct (lookup_prologue s r) as [[req t]|e]; [|done].
  cbv zeta. unfold hbind, hget, hput. destruct (sv_access s !! _) as [a|].
  - destruct (negb (seqb (cd_client_id a) _)); [done|]. cbv beta iota. destruct (sv_refresh _ !! _) as [f|]; [|done].
    by destruct (negb (seqb (cd_client_id f) _)).
  - cbv beta iota. destruct (sv_refresh _ !! _) as [f|]; [|done]. by destruct (negb (seqb (cd_client_id f) _)).
Qed.
Lemma serve_refines {W} (wr : writer W) ev r s w : serve_on wr ev r s w = after_result wr (handle ev s r) w.
Proof.
  unfold serve_on, handle. cbv zeta. destruct (seqb _ "authorize"); [apply authorization_refines|].
  destruct (seqb _ "token"); [apply token_refines|]. destruct (seqb _ "introspect"); [apply introspection_refines|].
  destruct (seqb _ "revoke"); [apply revocation_refines|]. done.
Qed.

(** ** What is sent for each answer *)
Lemma answer_calls o : answer o -> exists calls, (one_answer calls \/ short_answer calls) /\
  forall W (wr : writer W) w, outcome_on wr o w = acts wr calls w.
Proof.
  intros Ho.
  assert (HE : forall f : forall W, writer W -> W -> W * option bool, (exists calls, one_answer calls /\ sends f calls) ->
    exists calls, (one_answer calls \/ short_answer calls) /\ forall W (wr : writer W) w, f W wr w = acts wr calls w).
  { intros f (calls & Hc & Hs). exists calls. split; [by left|]. by apply sends_acts. }
  destruct Ho as [e He|rq e He Hne Hu|r Hr|r Hr Hu|r Hu|r Hr| | |]; cbn [outcome_on].
  - apply HE. apply plain_error_shape in He as (Hr & _ & _ & _ & _ & _ & Hs). apply (proj1 (c80_error e)); [done|].
    destruct Hs as [(_ & -> & _)|([-> | ->] & _)]; lia.
  - apply HE. destruct He as (b & Hb & ->). apply (proj1 (proj2 (c80_error _))); cbn [e_redirect_uri set_error_redirect]; done.
  - apply HE, c80_token. by left.
  - apply HE, c80_token. by right.
  - apply HE. by apply c80_code.
  - apply HE, c80_introspection. destruct (ir_active r); [right|by left]. specialize (Hr eq_refl).
    unfold known_token_type in Hr. rewrite orb_true_iff, !seqb_true in Hr. destruct Hr as [Hr|Hr]; rewrite Hr; cbn; tauto.
  - exists [WriteHeader 200]. split; [right; right; exists 200%Z; split; [lia|done]|]. intros. apply acts_one.
  - exists [WriteBody notice]. split; [right; left; eauto|]. intros. apply acts_one.
  - apply HE. exists [SetHeader "Content-Type" "text/plain; charset=utf-8"; SetHeader "X-Content-Type-Options" "nosniff"; WriteHeader 404; WriteBody ("404 page not found" +:+ str1 "010")].
    split. { exists [SetHeader "Content-Type" "text/plain; charset=utf-8"; SetHeader "X-Content-Type-Options" "nosniff"], 404%Z, ("404 page not found" +:+ str1 "010").
      split; [hdrs|split; [lia|done]]. }
    apply sends_acts. intros W wr. unfold not_found_on. do_calls.
Qed.

(** ** The theorems about the server *)
Definition end_unit (e : wend) : option unit := match e with Panics => None | _ => Some tt end.

Lemma acts_answer {W} (wr : writer W) calls s w : answer_with (acts wr calls) s w = (s, fst (play wr w calls), end_unit (snd (play wr w calls))).
Proof. unfold answer_with, acts. by destruct (play wr w calls) as [w' []]. Qed.
Lemma answer_ext {W} (m m' : wact W bool) s w : m w = m' w -> answer_with m s w = answer_with m' s w.
Proof. unfold answer_with. by intros ->. Qed.

Lemma c80_serve : forall ev s r,
  (exists s' w0 calls, serve_http ev s r new_rw = (s', Some w0) /\ (one_answer calls \/ short_answer calls) /\
   forall W (wr : writer W) w,
     serve_on wr ev r s w = (s', fst (play wr w calls), match snd (play wr w calls) with Panics => None | _ => Some tt end)) \/
  (serve_http ev s r new_rw = (s, None) /\ forall W (wr : writer W) w, serve_on wr ev r s w = (s, w, None)).
Proof.
  intros ev s r. destruct (handle ev s r) as [s' o|s'] eqn:E.
  - left. pose proof (handle_answer _ _ _ _ _ E) as Ha. destruct (write_answer o Ha) as (w0 & Hw & _).
    destruct (answer_calls o Ha) as (calls & Hc & Hs). exists s', w0, calls. split; [unfold serve_http; by rewrite E, Hw|].
    split; [done|]. intros W wr w. rewrite serve_refines, E. cbn [after_result].
    rewrite (answer_ext _ _ s' w (Hs W wr w)). apply acts_answer.
  - right. apply handle_panic in E as E'. destruct E' as [-> _]. unfold serve_http. rewrite E. split; [done|].
    intros W wr w. by rewrite serve_refines, E.
Qed.

Lemma deny_acts {W} (wr : writer W) e calls s w : sends (fun W wr => write_bearer_error_on wr (GErr e)) calls ->
  deny wr e s w = (s, fst (play wr w calls), match snd (play wr w calls) with Panics => None | _ => Some false end).
Proof.
  intros H. unfold deny, hbind. rewrite (answer_ext _ (acts wr calls) s w) by (exact (proj1 (sends_acts _ _) H W wr w)). rewrite acts_answer.
  by destruct (snd (play wr w calls)).
Qed.
Lemma authorize_refines {W} (wr : writer W) now r required s w :
  authorize_on wr now r required s w =
  match authorize_decision now s r required with
  | Granted => (s, w, Some true) | AuthPanic => (s, w, None) | Denied e => deny wr e s w
  end.
Proof.
  unfold authorize_on, authorize_decision. destruct (parse_bearer_token r) as [tk|e|]; [|done..].
  unfold hbind, hget. cbv beta iota. destruct (parse_token _ _) as [token|msg]; [|done].
  destruct (sv_access s !! _) as [a|]; [|done]. destruct (_ <? _)%Z; [done|]. by destruct (negb _).
Qed.
Lemma c80_authorize : forall now s r required,
  (authorize now s r required new_rw = Some (true, new_rw) /\
   forall W (wr : writer W) w, authorize_on wr now r required s w = (s, w, Some true)) \/
  (exists w0 calls, authorize now s r required new_rw = Some (false, w0) /\ one_answer calls /\
   forall W (wr : writer W) w,
     authorize_on wr now r required s w = (s, fst (play wr w calls), match snd (play wr w calls) with Panics => None | _ => Some false end)).
Proof.
  intros now s r required.
  assert (HD : forall e, authorize_decision now s r required = Denied e -> In (e_status e) [400; 401; 403]%Z ->
    exists w0 calls, authorize now s r required new_rw = Some (false, w0) /\ one_answer calls /\
     forall W (wr : writer W) w, authorize_on wr now r required s w = (s, fst (play wr w calls), match snd (play wr w calls) with Panics => None | _ => Some false end)).
  { intros e He Hst. destruct (c80_bearer (GErr e)) as (calls & Hc & Hs).
    { intros e' [= <-]. cbn in Hst. destruct Hst as [<-|[<-|[<-|[]]]]; lia. }
    destruct (write_bearer_unsent new_rw e) as (w' & H & _); [done|..].
    { unfold valid_status. cbn in Hst. destruct Hst as [<-|[<-|[<-|[]]]]; lia. }
    { cbn in Hst. destruct Hst as [<-|[<-|[<-|[]]]]; lia. }
    exists w', calls. unfold authorize. rewrite He, H. split; [done|]. split; [done|].
    intros W wr w. rewrite authorize_refines, He. by apply deny_acts. }
  destruct (authorize_cases now s r required) as [(_ & E)|[(_ & _ & E)|(str & _ & [(_ & E)|(sg & _ & [(_ & E)|(c & _ & [(_ & E)|(_ & [(_ & E)|(_ & E)])])])])]];
    try (right; eapply HD; [exact E|cbn; tauto]).
  left. unfold authorize. rewrite E. split; [done|]. intros W wr w. by rewrite authorize_refines, E.
Qed.

(** ** The writer of net/http *)
Lemma net_http_header w k v : net_http w (SetHeader k v) = (header_set w k v, Fine).
Proof. done. Qed.
Lemma play_snoc {W} (wr : writer W) l c w : l <> [] ->
  play wr w (l ++ [c]) = match play wr w l with (w', Panics) => (w', Panics) | (w', _) => wr w' c end.
Proof.
  revert w. induction l as [|d l IH]; intros w Hne; [done|]. cbn [play app]. destruct (wr w d) as [w' []] eqn:E.
  - destruct l as [|d2 l]; cbn [app]; [cbn [play]; by destruct (wr w' c) as [? []]|]. change (d2 :: l ++ [c]) with ((d2 :: l) ++ [c]). by apply IH.
  - destruct l as [|d2 l]; cbn [app]; [cbn [play]; by destruct (wr w' c) as [? []]|]. change (d2 :: l ++ [c]) with ((d2 :: l) ++ [c]). by apply IH.
  - done.
Qed.
Lemma wdo_set w k v : wdo net_http (SetHeader k v) w = (header_set w k v, Some true).
Proof. done. Qed.
Lemma wdo_add w k v : wdo net_http (AddHeader k v) w = (header_add w k v, Some true).
Proof. done. Qed.
Lemma wdo_status w code w' : write_header w code = Some w' -> wdo net_http (WriteHeader code) w = (w', Some true).
Proof. intros H. unfold wdo, net_http. by rewrite H. Qed.
Lemma wdo_body w b w' ok : write_bytes w b = Some (w', ok) -> wdo net_http (WriteBody b) w = (w', Some ok).
Proof. intros H. unfold wdo, net_http. rewrite H. by destruct ok. Qed.
Lemma wdo_status_body w code b w' ok : match write_header w code with None => None | Some w1 => write_bytes w1 b end = Some (w', ok) ->
  wbind (wdo net_http (WriteHeader code)) (fun _ => wdo net_http (WriteBody b)) w = (w', Some ok).
Proof.
  intros H. destruct (write_header w code) as [w1|] eqn:E; [|done]. unfold wbind. rewrite (wdo_status _ _ _ E). by apply wdo_body.
Qed.
Lemma write_net w j status w' ok : write w j status = Some (w', ok) -> write_on net_http j status w = (w', Some ok).
Proof. intros H. unfold write_on. unfold wbind at 1 2 3. rewrite !wdo_set. by apply wdo_status_body. Qed.
Lemma redirect_net w uri params frag w' ok : write_redirect w uri params frag = Some (w', ok) ->
  write_redirect_on net_http uri params frag w = (w', Some ok).
Proof.
  unfold write_redirect, write_redirect_on. destruct (redirect_location uri params frag) as [loc|]; [|by intros [= <- <-]].
  intros H. unfold wbind at 1 2 3 4. rewrite wdo_add, !wdo_set. by apply wdo_status_body.
Qed.
Lemma headers_net order w : set_headers_on net_http order w = (fold_left (fun w kv => header_set w (fst kv) (snd kv)) order w, Some true).
Proof. revert w. induction order as [|kv order IH]; intros w; [done|]. cbn [set_headers_on fold_left]. unfold wbind. rewrite wdo_set. apply IH. Qed.
Lemma error_net w err w' ok : write_error w err = Some (w', ok) -> write_error_on net_http err w = (w', Some ok).
Proof.
  unfold write_error, write_error_on, write_error_order, write_error_order_on. cbv zeta. intros H. unfold wbind at 1. rewrite headers_net.
  destruct (negb (seqb (e_redirect_uri _) "")); [by apply redirect_net|by apply write_net].
Qed.
Lemma token_net w r w' ok : write_token_response w r = Some (w', ok) -> write_token_response_on net_http r w = (w', Some ok).
Proof. unfold write_token_response, write_token_response_on. destruct (negb _); [apply redirect_net|apply write_net]. Qed.
Lemma introspection_net w r w' ok : write_introspection_response w r = Some (w', ok) -> write_introspection_response_on net_http r w = (w', Some ok).
Proof.
  unfold write_introspection_response, write_introspection_response_on. destruct (_ && _); [by intros [= <- <-]|apply write_net].
Qed.
Lemma bearer_net w err w' ok : write_bearer_error w err = Some (w', ok) -> write_bearer_error_on net_http err w = (w', Some ok).
Proof.
  unfold write_bearer_error, write_bearer_error_on. cbv zeta. destruct err as [e|]; [|apply wdo_status_body].
  destruct (e_status e =? 500)%Z; [apply wdo_status_body|]. intros H. unfold wbind at 1. rewrite wdo_set. by apply wdo_status_body.
Qed.
Lemma outcome_net w o w' : write_outcome w o = Some w' -> exists ok, outcome_on net_http o w = (w', Some ok).
Proof.
  assert (HF : forall x : option (rw * bool), option_map fst x = Some w' -> exists ok, x = Some (w', ok)).
  { intros [[w1 ok]|]; [|done]. intros [= ->]. eauto. }
  destruct o as [e|r|r|r| | |]; cbn [write_outcome outcome_on].
  - intros [ok H]%HF. exists ok. by apply error_net.
  - intros [ok H]%HF. exists ok. by apply token_net.
  - intros [ok H]%HF. exists ok. by apply redirect_net.
  - intros [ok H]%HF. exists ok. by apply introspection_net.
  - intros H. exists true. by apply wdo_status.
  - intros [ok H]%HF. exists ok. by apply wdo_body.
  - unfold not_found, not_found_on. intros H. cbv zeta in H.
    destruct (write_header _ 404) as [w3|] eqn:E3; [|done]. destruct (write_bytes w3 _) as [[w4 ok]|] eqn:E4; [|done]. injection H as ->.
    exists ok. unfold wbind at 1 2. rewrite !wdo_set. apply wdo_status_body. by rewrite E3.
Qed.
Lemma c80_net_http : forall ev s r w s' w', serve_http ev s r w = (s', Some w') -> serve_on net_http ev r s w = (s', w', Some tt).
Proof.
  intros ev s r w s' w' H. unfold serve_http in H. rewrite serve_refines. destruct (handle ev s r) as [s1 o|s1]; [|done].
  injection H as -> Hw. cbn [after_result]. destruct (outcome_net _ _ _ Hw) as [ok Ho]. unfold answer_with. by rewrite Ho.
Qed.
Lemma c80_net_http_authorize : forall now s r required w b w', authorize now s r required w = Some (b, w') ->
  authorize_on net_http now r required s w = (s, w', Some b).
Proof.
  intros now s r required w b w' H. unfold authorize in H. rewrite authorize_refines.
  destruct (authorize_decision now s r required) as [|e|]; [by injection H as <- <-| |done].
  destruct (write_bearer_error w (GErr e)) as [[w1 ok]|] eqn:E; [|done]. injection H as <- <-.
  unfold deny, hbind, answer_with. by rewrite (bearer_net _ _ _ _ E).
Qed.

(** ** A connection that breaks *)
Lemma breaking_other w n c : (forall b, c <> WriteBody b) -> breaking (w, n) c = ((fst (net_http w c), n), snd (net_http w c)).
Proof. intros H. unfold breaking. destruct c; try (by destruct (net_http w _)). by destruct (H b). Qed.
Lemma substring_all n b : (String.length b <= n)%nat -> substring 0 n b = b.
Proof. revert n. induction b as [|a b IH]; intros [|n] H; cbn in *; try lia; try done. rewrite IH by lia. done. Qed.
Lemma substring_empty n : substring 0 n "" = "".
Proof. by destruct n. Qed.
Lemma breaking_body w n b w' ok : write_bytes w b = Some (w', ok) -> rw_body w = "" -> exists w2 e,
  breaking (w, n) (WriteBody b) = ((w2, n - String.length b)%nat, e) /\ e <> Panics /\
  (e = Fine <-> ok = true /\ (String.length b <= n)%nat) /\
  rw_sent w2 = rw_sent w' /\ rw_header w2 = rw_header w' /\ rw_body w2 = substring 0 n (rw_body w').
Proof.
  intros H Hb. cbn [breaking]. unfold write_bytes in H |- *. destruct (write_header w 200) as [w1|] eqn:E; [|done].
  assert (Hb1 : rw_body w1 = "").
  { unfold write_header in E. destruct (rw_sent w) as [?|]; [by injection E as <-|]. by injection E as <-. }
  destruct (rw_sent w1) as [[code h]|] eqn:Es; cycle 1.
  { exfalso. unfold write_header in E. destruct (rw_sent w) as [?|] eqn:E0; [injection E as <-; by rewrite E0 in Es|]. injection E as <-. done. }
  destruct (seqb b "") eqn:Eb.
  { apply seqb_true in Eb as ->. injection H as <- <-. rewrite substring_empty. change (seqb "" "") with true. cbv iota.
    eexists _, _. split; [reflexivity|]. cbn [String.length andb Nat.leb]. split; [done|]. split; [split; [split; [done|lia]|done]|].
    rewrite Hb1, substring_empty. done. }
  destruct (body_allowed code) eqn:Ea.
  - injection H as <- <-. cbn [rw_body rw_sent rw_header]. rewrite Hb1.
    assert (H1 : exists w2, (if seqb (substring 0 n b) "" then Some (w1, true) else
       Some ({| rw_header := rw_header w1; rw_sent := Some (code, h); rw_body := "" +:+ substring 0 n b |}, true)) = Some (w2, true) /\      rw_sent w2 = Some (code, h) /\ rw_header w2 = rw_header w1 /\ rw_body w2 = substring 0 n b).
    { destruct (seqb (substring 0 n b) "") eqn:E2; [|by eexists]. apply seqb_true in E2. exists w1. split_and!; try done. by rewrite E2. }
    destruct H1 as (w2 & H1 & H2 & H3 & H4).
    rewrite H1. exists w2. eexists. split; [reflexivity|]. cbn [andb]. destruct (String.length b <=? n)%nat eqn:El.
    + apply Nat.leb_le in El. split_and!; try done.
    + apply Nat.leb_gt in El. split; [done|]. split; [split; [done|intros [_ ?]; lia]|]. done.
  - injection H as <- <-. destruct (seqb (substring 0 n b) "") eqn:E2.
    + apply seqb_true in E2. apply seqb_false in Eb. destruct b as [|a b]; [done|]. destruct n as [|n]; [|done].
      eexists w1, _. split; [reflexivity|]. cbn [andb String.length Nat.leb]. split; [done|]. split; [split; [done|by intros [? _]]|].
      rewrite Hb1, substring_empty. done.
    + eexists w1, _. split; [reflexivity|]. cbn [andb]. split; [done|]. split; [split; [done|by intros [? _]]|]. rewrite Hb1, substring_empty. done.
Qed.

(** Before the body, the two writers do the same. *)
Lemma breaking_start w n l : Forall (fun c => forall b, c <> WriteBody b) l ->
  play breaking (w, n) l = ((fst (play net_http w l), n), snd (play net_http w l)).
Proof.
  intros H. revert w. induction H as [|c l Hc Hl IH]; intros w; [done|]. cbn [play]. rewrite breaking_other by done.
  destruct (net_http w c) as [w' e] eqn:E. cbn [fst snd]. destruct e, l as [|d l]; try done; apply IH.
Qed.
Lemma start_body w l : Forall (fun c => forall b, c <> WriteBody b) l -> rw_body (fst (play net_http w l)) = rw_body w.
Proof.
  intros H. revert w. induction H as [|c l Hc Hl IH]; intros w; [done|]. cbn [play].
  assert (Hb : rw_body (fst (net_http w c)) = rw_body w).
  { destruct c as [k v|k v|code|b]; [done|done| |by destruct (Hc b)]. cbn [net_http]. destruct (write_header w code) as [w1|] eqn:E; [|done].
    unfold write_header in E. destruct (rw_sent w); [by injection E as <-|]. destruct (_ || _); [done|]. by injection E as <-. }
  destruct (net_http w c) as [w' e] eqn:E. cbn [fst] in Hb. destruct e, l as [|d l]; try done; by rewrite IH.
Qed.
Lemma before_body hs code : Forall sets_header hs -> Forall (fun c => forall b, c <> WriteBody b) (hs ++ [WriteHeader code]).
Proof.
  intros H. apply Forall_app. split; [|by repeat constructor]. eapply List.Forall_impl; [|exact H].
  intros c [(k & v & ->)|(k & v & ->)] b; done.
Qed.
Lemma breaking_calls w n calls : (one_answer calls \/ short_answer calls) -> rw_body w = "" ->
  (snd (play net_http w calls) <> Panics) ->
  exists w2 n2 e, play breaking (w, n) calls = ((w2, n2), e) /\ e <> Panics /\
   rw_sent w2 = rw_sent (fst (play net_http w calls)) /\ rw_header w2 = rw_header (fst (play net_http w calls)) /\
   rw_body w2 = substring 0 n (rw_body (fst (play net_http w calls))).
Proof.
  intros Hc Hb Hp.
  assert (Hlast : forall l b, Forall (fun c => forall b, c <> WriteBody b) l -> calls = l ++ [WriteBody b] -> 
    exists w2 n2 e, play breaking (w, n) calls = ((w2, n2), e) /\ e <> Panics /\
     rw_sent w2 = rw_sent (fst (play net_http w calls)) /\ rw_header w2 = rw_header (fst (play net_http w calls)) /\
     rw_body w2 = substring 0 n (rw_body (fst (play net_http w calls)))).
  { intros l b Hl ->.
    assert (Hend : forall w1, rw_body w1 = "" -> snd (net_http w1 (WriteBody b)) <> Panics ->
      exists w2 n2 e, breaking (w1, n) (WriteBody b) = ((w2, n2), e) /\ e <> Panics /\
       rw_sent w2 = rw_sent (fst (net_http w1 (WriteBody b))) /\ rw_header w2 = rw_header (fst (net_http w1 (WriteBody b))) /\
       rw_body w2 = substring 0 n (rw_body (fst (net_http w1 (WriteBody b))))).
    { intros w1 Hb1 Hn. cbn [net_http] in Hn |- *. destruct (write_bytes w1 b) as [[w' ok]|] eqn:E; [|done].
      destruct (breaking_body w1 n b w' ok E Hb1) as (w2 & e & H1 & H2 & _ & H3). exists w2, (n - String.length b)%nat, e.
      split; [done|]. split; [done|]. by destruct ok. }
    destruct (decide (l = [])) as [-> |Hne].
    - cbn [app play] in Hp |- *. specialize (Hend w Hb). destruct (net_http w (WriteBody b)) as [w' e'] eqn:E.
      destruct Hend as (w2 & n2 & e & H1 & H2 & H3); [by destruct e'|]. rewrite H1. exists w2, n2, e. split; [by destruct e|]. split; [done|]. by destruct e'.
    - rewrite play_snoc in Hp by done. rewrite !play_snoc by done. rewrite breaking_start by done.
      pose proof (start_body w l Hl) as Hs. destruct (play net_http w l) as [w1 e1] eqn:E1. cbn [fst snd] in *. rewrite Hb in Hs.
      destruct e1; [by apply Hend|by apply Hend|done]. }
  destruct Hc as [(hs & code & body & Hh & _ & ->)|[(body & ->)|(code & Hcode & ->)]].
  - apply (Hlast (hs ++ [WriteHeader code]) body); [by apply before_body|by rewrite <- app_assoc].
  - apply (Hlast [] body); done.
  - assert (Hl : Forall (fun c => forall b, c <> WriteBody b) [WriteHeader code]) by (by repeat constructor).
    rewrite breaking_start by done. pose proof (start_body w _ Hl) as Hs. rewrite Hb in Hs.
    exists (fst (play net_http w [WriteHeader code])), n, (snd (play net_http w [WriteHeader code])). split_and!; try done. by rewrite Hs, substring_empty.
Qed.
Lemma c80_breaking : forall ev s r s' w' n, serve_http ev s r new_rw = (s', Some w') ->
  exists w2 n2, serve_on breaking ev r s (new_rw, n) = (s', (w2, n2), Some tt) /\
    rw_sent w2 = rw_sent w' /\ rw_body w2 = substring 0 n (rw_body w').
Proof.
  intros ev s r s' w' n H. pose proof (c80_net_http _ _ _ _ _ _ H) as Hn.
  destruct (c80_serve ev s r) as [(s1 & w0 & calls & H1 & Hc & Hs)|[H1 _]]; [|by rewrite H1 in H].
  rewrite H1 in H. injection H as -> ->. rewrite Hs in Hn. injection Hn as Hw He.
  destruct (breaking_calls new_rw n calls Hc) as (w2 & n2 & e & Hp & Hne & Ha & _ & Hb).
  { done. }
  { by destruct (snd (play net_http new_rw calls)). }
  exists w2, n2. rewrite Hs, Hp. rewrite Hw in Ha, Hb. split_and!; try done. by destruct e.
Qed.
