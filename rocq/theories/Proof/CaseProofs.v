(** Facts about the concrete cases and the counterexamples. *)
From Verif.Model Require Import Server.
From Verif.Spec Require Import TokenSpec ScopeSpec WireSpec RequestSpec ServerSpec Cases.
From Verif.Proof Require Import WireFacts Steps ServerFacts ServerProofs GrantProofs EffectProofs.

Lemma case_names str : sig_of str <> "" -> names (cfg_secret case_config) str (sig_of str).
Proof.
  unfold sig_of. destruct (parse_token (cfg_secret case_config) str) eqn:E; [|done]. intros _. by apply names_parsed.
Qed.
Lemma case_names_fun str sg : names (cfg_secret case_config) str sg -> sg = sig_of str.
Proof.
  intros H. apply names_spec in H as (t & H & ->). unfold sig_of. by rewrite H.
Qed.
(** c1 in a server with the clients of the case *)
Lemma case_from s r : sv_clients s = sv_clients case_server -> client_credentials r = ("c1", "s1") -> from_client s r "c1".
Proof. intros H Hc. exists "s1". split; [done|]. exists case_client. rewrite H. split; [vm_compute; reflexivity|done]. Qed.
Lemma case_from2 s r : sv_clients s = sv_clients case_server -> client_credentials r = ("c2", "") -> from_client s r "c2".
Proof. intros H Hc. exists "". split; [done|]. exists case_public_client. rewrite H. split; [vm_compute; reflexivity|done]. Qed.
Lemma case_bearer str : str <> "" -> bearer (bearer_request str) str.
Proof. intros H. exists "Bearer". split; [done|]. split; [|done]. apply same_ignoring_case_fold. reflexivity. Qed.
Lemma case_endpoint auth l name : endpoint (post_to ("/oauth2/" +:+ name) auth l) name.
Proof. left. exists "/oauth2". reflexivity. Qed.

Lemma case_redeem_complete code : code = code_of step1 -> forall auth, In auth [case_auth; case_auth2] ->
  complete_token_request (redeem_request auth code).
Proof.
  intros -> auth Ha. split; [apply (case_endpoint _ _ "token")|].
  destruct Ha as [<-|[<-|[]]]; (split; [eexists; vm_compute; reflexivity|]); right; right; left; vm_compute; reflexivity.
Qed.
Lemma case_replays auth : In auth [case_auth; case_auth2] ->
  replays (after step2) (redeem_request auth (code_of step1)) (sig_of (code_of step1)).
Proof.
  intros Ha. split; [apply (case_endpoint _ _ "token")|].
  assert (body_param (redeem_request auth (code_of step1)) "grant_type" = "authorization_code" /\
          body_param (redeem_request auth (code_of step1)) "code" = code_of step1) as [H1 H2]
    by (destruct Ha as [<-|[<-|[]]]; split; vm_compute; reflexivity).
  split; [done|]. split.
  - rewrite H2. replace (server_secret (after step2)) with (cfg_secret case_config) by (vm_compute; reflexivity).
    apply case_names. vm_compute. discriminate.
  - eexists. split; [vm_compute; reflexivity|reflexivity].
Qed.

(** C44: client c2 replays the used code of c1 *)
Lemma c44_refuted : exists ev s r k c,
  s = after step2 /\ from_client s r "c2" /\ acts_for r "c2" /\
  sv_access s !! k = Some c /\ cd_client_id c = "c1" /\ sv_access (res_server (handle ev s r)) !! k = None.
Proof.
  exists (case_env 1003 rand3), (after step2), (redeem_request case_auth2 (code_of step1)), (sig_of (access_of step2)). eexists.
  split; [done|]. split; [apply case_from2; vm_compute; reflexivity|].
  split; [right; split; [rewrite endpoint_authorize; vm_compute; discriminate|vm_compute; reflexivity]|].
  split; [vm_compute; reflexivity|]. split; [reflexivity|]. vm_compute. reflexivity.
Qed.
(** C48: an hour and a second after its issue the access token is still reported active *)
Lemma c48_refuted : exists s r x w,
  s = after step2 /\ handle (case_env 4602 rand3) s r = Done s (OIntro x) /\
  ir_active x = true /\ ir_token_type x = "access_token" /\
  authorize (4602 * second) s (bearer_request (body_param r "token")) (ir_scope x) new_rw = Some (false, w).
Proof.
  exists (after step2), (lookup_request "/oauth2/introspect" case_auth (access_of step2)). eexists _, _.
  split; [done|]. split; [vm_compute; reflexivity|]. split; [reflexivity|]. split; [reflexivity|]. vm_compute. reflexivity.
Qed.
