(** The concrete case of C67. *)
From Verif.Model Require Import Server History.
From Verif.Spec Require Import TokenSpec ScopeSpec WireSpec RequestSpec ServerSpec HistorySpec Cases SecretSpec SecretCases.
From Verif.Proof Require Import StrFacts UrlFacts WireFacts ServerFacts Steps ServerProofs GrantProofs CaseProofs HistoryFacts LocalCase.

#[local] Open Scope string_scope.
#[local] Opaque handle parse_token.

Lemma secret_history p : history case_config (secret_run p) (st_after (secret_y4 p)).
Proof.
  apply (run_step _ _ (st_after (secret_y3 p))). apply (run_step _ _ (st_after (secret_y2 p))). apply (run_step _ _ (st_after secret_y1)).
  apply (run_step _ _ (new_server case_config)). apply run_nil.
Qed.
Definition guess_request : request := authorize_request "code" "xyz" "u1" "guess".
Definition own_request : request := client_request case_auth.
Lemma guess_facts : endpoint guess_request "authorize" /\ body_param guess_request "username" = "u1" /\ body_param guess_request "password" = "guess".
Proof. split; [apply (case_endpoint _ _ "authorize")|]. split; vm_compute; reflexivity. Qed.
Lemma own_facts : endpoint own_request "token" /\ client_credentials own_request = ("c1", "s1") /\ body_param own_request "grant_type" = "client_credentials".
Proof. split; [apply (case_endpoint _ _ "token")|]. split; vm_compute; reflexivity. Qed.
Lemma secret_states : 
  sv_users (st_before (secret_y3 "p1")) !! "u1" = Some (secret_user "p1") /\ sv_users (st_before (secret_y3 "p2")) !! "u1" = Some (secret_user "p2") /\
  sv_clients (st_before (secret_y4 "p1")) !! "c1" = Some case_client /\ sv_clients (st_before (secret_y4 "p2")) !! "c1" = Some case_client.
Proof. split; [|split; [|split]]; vm_compute; reflexivity. Qed.
Lemma guess_fares : fares_alike (st_before (secret_y3 "p1")) (st_before (secret_y3 "p2")) guess_request.
Proof.
  destruct guess_facts as (He & Hu & Hp), secret_states as (U1 & U2 & _). generalize dependent guess_request. intros r He Hu Hp.
  split; [intros Hn; by destruct (Hn He)|]. intros _. cbv zeta. rewrite Hu, Hp.
  split; intros (u & E & H); [rewrite U1 in E|rewrite U2 in E]; injection E as <-; discriminate H.
Qed.
Lemma own_fares : fares_alike (st_before (secret_y4 "p1")) (st_before (secret_y4 "p2")) own_request.
Proof.
  destruct own_facts as (He & Hc & Hg), secret_states as (_ & _ & C1 & C2). generalize dependent own_request. intros r He Hc Hg.
  split.
  - intros _. rewrite Hc. unfold secret_of. by rewrite C1, C2.
  - intros [[Hx _]|[_ Hx]]; [|congruence]. exfalso. apply (token_only r "authorize"); [done|by left|done].
Qed.
Lemma secret_alike : fare_alike (secret_run "p1") (secret_run "p2").
Proof.
  constructor; [|constructor; [|constructor; [|constructor; [|constructor]]]].
  - split; [left; reflexivity|]. intros ev r [= <- <-]. exact own_fares.
  - split; [left; reflexivity|]. intros ev r [= <- <-]. exact guess_fares.
  - split; [|intros ev r E; discriminate E]. right; right. exists "u1", (secret_user "p1"), (secret_user "p2"). split; [reflexivity|]. split; [reflexivity|]. by split.
  - split; [left; reflexivity|]. intros ev r E; discriminate E.
Qed.
Lemma secret_answers : exists e t, st_answer (secret_y3 "p1") = Answered (OError e) /\ e_name e = "access_denied" /\
  st_answer (secret_y4 "p1") = Answered (OToken t).
Proof. eexists _, _. split; [vm_compute; reflexivity|]. split; vm_compute; reflexivity. Qed.
