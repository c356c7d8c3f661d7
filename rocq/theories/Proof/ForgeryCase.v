(** Concrete cases for C98. *)
From Verif.Model Require Import Server History.
From Verif.Spec Require Import TokenSpec ScopeSpec WireSpec RequestSpec ServerSpec HistorySpec Cases HistoryCases HashSpec ForgerySpec.
From Verif.Proof Require Import StrFacts HsFacts ServerFacts CaseProofs HistoryCase.

Lemma case_accepted : history case_config history2 (after step2) /\
  (authorize (1002 * second) (after step2) (bearer_request (access_of step2)) None new_rw = Some (true, new_rw)) /\
  (exists s' t, handle (case_env 1002 rand3) (after step2) (refresh_request case_auth (refresh_of step2)) = Done s' (OToken t)) /\
  body_param (refresh_request case_auth (refresh_of step2)) "grant_type" = "refresh_token" /\
  history case_config history1 (after step1) /\
  (exists s' t, handle (case_env 1001 rand2) (after step1) (redeem_request case_auth (code_of step1)) = Done s' (OToken t)) /\
  body_param (redeem_request case_auth (code_of step1)) "grant_type" = "authorization_code".
Proof.
  split; [exact case_history2|]. split; [vm_compute; reflexivity|]. split; [eexists _, _; vm_compute; reflexivity|].
  split; [vm_compute; reflexivity|]. split; [exact case_history1|]. split; [eexists _, _; vm_compute; reflexivity|].
  vm_compute. reflexivity.
Qed.
Lemma reported x : ir_active x = true -> ~ reports_nothing x.
Proof. intros H E. rewrite E in H. discriminate H. Qed.
Lemma case_reported : exists x,
  handle (case_env 1002 rand3) (after step2) (lookup_request "/oauth2/introspect" case_auth (access_of step2)) = Done (after step2) (OIntro x) /\
  ~ reports_nothing x.
Proof. eexists. split; [vm_compute; reflexivity|]. apply reported. vm_compute. reflexivity. Qed.

Lemma no_dot s : contains "." s = false -> ~ In "."%char (chars s).
Proof.
  induction s as [|a s IH]; cbn; [tauto|]. intros H. apply orb_false_iff in H as [H1 H2]. intros [->|Hx]; [|by apply IH].
  by rewrite Ascii.eqb_refl in H1.
Qed.
Lemma case_spellings :
  same_token "MDEyMzQ1Njc4OWFiY2RlZg.q4A3MWDZaJmzogkpH85_VRao2yUMeT7yhJv7jqpq3j8"
    "MDEyMzQ1Njc4OWFiY2RlZh.q4A3MWDZaJmzogkpH85_VRao2yUMeT7yhJv7jqpq3j8".
Proof.
  eexists _, _, "MDEyMzQ1Njc4OWFiY2RlZg", "q4A3MWDZaJmzogkpH85_VRao2yUMeT7yhJv7jqpq3j8", "MDEyMzQ1Njc4OWFiY2RlZh", "q4A3MWDZaJmzogkpH85_VRao2yUMeT7yhJv7jqpq3j8".
  split; [split; [reflexivity|split; apply no_dot; reflexivity]|]. split; [apply rawurl_decode_spec; vm_compute; reflexivity|].
  split; [apply rawurl_decode_spec; vm_compute; reflexivity|].
  split; [split; [reflexivity|split; apply no_dot; reflexivity]|]. split; apply rawurl_decode_spec; vm_compute; reflexivity.
Qed.
