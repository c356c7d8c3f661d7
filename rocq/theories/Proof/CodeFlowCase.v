(** A concrete run of the authorization code flow. *)
From Verif.Model Require Import Server History Client.
From Verif.Spec Require Import TokenSpec ScopeSpec WireSpec RequestSpec ServerSpec HistorySpec ClientSpec FlowSpec Cases HistoryCases ClientCases FlowCases.
From Verif.Proof Require Import StrFacts Steps WireFacts Redirect ServerFacts ServerProofs GrantProofs EffectProofs CaseProofs Effects HistoryFacts HistoryProofs HistoryCase
  ClientProofs ClientCase CodeFlow.

#[local] Opaque handle parse_token.

Definition body_values (r : request) : list string := "" :: flat_map snd (map_to_list (post_form r)).
Lemma body_value r k : In (body_param r k) (body_values r).
Proof.
  unfold body_values, post_form, body_param, vget. destruct (parse_form r) as [f|]; [|by left].
  destruct (f_post f !! k) as [[|x l]|] eqn:E; [by left| |by left]. right. apply in_flat_map. exists (k, x :: l).
  split; [|by left]. apply elem_of_list_In. unfold values in *. apply elem_of_map_to_list. exact E.
Qed.
Definition other_answer (sg : string) (res : result) : bool :=
  match res with
  | Done _ (OToken t) => negb (seqb (sig_of (tr_access_token t)) sg) && negb (seqb (sig_of (tr_refresh_token t)) sg)
  | Done _ (OCode c) => negb (seqb (sig_of (cr_code c)) sg)
  | _ => true
  end.
Lemma untouched_one s ev r sg : forallb (fun v => negb (seqb (sig_of v) sg)) (body_values r) = true ->
  other_answer sg (handle ev s r) = true -> untouched (cfg_secret case_config) [step_of s (Serve ev r)] sg.
Proof.
  intros Hv Ha y ev' r' [<-|[]] E. cbn in E. injection E as <- <-.
  assert (Hd : forall str, negb (seqb (sig_of str) sg) = true -> ~ names (cfg_secret case_config) str sg).
  { intros str H Hn. apply case_names_fun in Hn. subst sg. apply negb_true_iff, seqb_false in H. done. }
  split.
  - intros k. apply Hd. rewrite forallb_forall in Hv. apply (Hv _ (body_value r k)).
  - intros o Ho. cbn [step_of st_answer do_op snd] in Ho. destruct (handle ev s r) as [s' o'|s']; cbn [snd] in Ho; [|discriminate].
    injection Ho as ->. split_and!.
    + intros (t & -> & Hn). cbn [other_answer] in Ha. apply andb_true_iff in Ha as [Ha _]. exact (Hd _ Ha Hn).
    + intros (t & -> & Hn). cbn [other_answer] in Ha. apply andb_true_iff in Ha as [_ Ha]. exact (Hd _ Ha Hn).
    + intros (c & -> & Hn). cbn [other_answer] in Ha. exact (Hd _ Ha Hn).
Qed.

Lemma meantime_run : run (after step1) [step_of (after step1) meantime_op] (after meantime).
Proof. replace (after meantime) with (fst (do_op (after step1) meantime_op)) by (unfold meantime_op; by rewrite step_serve). apply run_step, run_nil. Qed.
Lemma meantime_untouched : untouched (cfg_secret case_config) [step_of (after step1) meantime_op] (sig_of (code_of step1)).
Proof. apply untouched_one; vm_compute; reflexivity. Qed.
Lemma meantime_token : access_of meantime <> "".
Proof. vm_compute. discriminate. Qed.
Lemma code_call : exists r, token_call (case_env 1002 rand2) (after meantime) case_client_config code_query r.
Proof.
  eexists. split; [vm_compute; reflexivity|]. split; [exact (case_leads "token" (or_introl eq_refl))|].
  split.
  - unfold expressible_token. split; [discriminate|]. split; [discriminate|]. split; [apply without_contains; reflexivity|].
    split; [constructor|]. right. eexists. vm_compute. reflexivity.
  - split; [vm_compute; discriminate|]. apply case_fits. vm_compute. reflexivity.
Qed.
Lemma code_client : authenticates (after meantime) "c1" "s1".
Proof. exists case_client. split; [vm_compute; reflexivity|]. intros _. reflexivity. Qed.
Lemma redirect_ok : ascii_text (en_redirect_uri case_client) /\ without "#" (en_redirect_uri case_client) /\ en_redirect_uri case_client <> "*".
Proof.
  split; [|split; [apply without_contains; reflexivity|discriminate]].
  intros a Ha. cbn in Ha. repeat destruct Ha as [<-|Ha]; try done.
Qed.
Lemma authorization_ok kind : In kind ["code"; "token"] ->
  let r0 := authorize_request kind "xyz" "u1" "p1" in
  complete_authorization case_server r0 /\ rq_method r0 = "POST" /\ form_param r0 "response_type" = kind /\
  password_of case_server (body_param r0 "username") (body_param r0 "password") /\
  covers (cfg_allowed_scope case_config) (parse_scope (form_param r0 "scope")) /\
  enough_random (case_env 1000 rand1) case_server 1 /\ sv_clients case_server !! form_param r0 "client_id" = Some case_client.
Proof.
  intros H r0. unfold r0. clear r0. destruct H as [<-|[<-|[]]];
  (split; [split; [apply (case_endpoint _ _ "authorize")|]; split; [eexists; vm_compute; reflexivity|]; split; [vm_compute; tauto|];
    exists case_client; split; vm_compute; reflexivity|]); (split; [reflexivity|]); (split; [vm_compute; reflexivity|]);
  (split; [exists case_user; split; vm_compute; reflexivity|]); (split; [intros x Hx; vm_compute in Hx; vm_compute; tauto|]);
  (split; [split; vm_compute; discriminate|]); vm_compute; reflexivity.
Qed.
