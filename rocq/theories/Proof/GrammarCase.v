(** Concrete cases for C97. *)
From Verif.Model Require Import Server History.
From Verif.Spec Require Import TokenSpec ScopeSpec RequestSpec ServerSpec HistorySpec Cases HistoryCases RefusalSpec RefusalCases GrammarSpec.
From Verif.Proof Require Import StrFacts ServerFacts ServerProofs CaseProofs HistoryCase GrammarProofs.

Lemma case_grammatical : grammatical_config case_config.
Proof.
  assert (H : forall x, In x ["read"; "write"] -> scope_token x).
  { intros x [<-|[<-|[]]]; (split; [discriminate|]); intros c Hc; cbn in Hc; unfold scope_char, code_between;
      repeat destruct Hc as [<-|Hc]; try (by destruct Hc); right; right; vm_compute; split; discriminate. }
  unfold grammatical_config. change (items (cfg_allowed_scope case_config)) with ["read"; "write"].
  apply List.Forall_forall. exact H.
Qed.
Lemma case_documents : exists w o x y, history case_config history2 (after step2) /\ grammatical_config case_config /\
  endpoint (refresh_request case_auth (refresh_of step2)) "token" /\
  serves (case_env 1002 rand3) (after step2) (refresh_request case_auth (refresh_of step2)) w /\ json_object w o /\
  In ("access_token", JStr x) o /\ In ("scope", JStr y) o.
Proof.
  eexists _, _, _, _. split; [exact case_history2|]. split; [exact case_grammatical|]. split; [apply (case_endpoint _ _ "token")|].
  split; [eexists; vm_compute; reflexivity|]. split; [split; [vm_compute; reflexivity|]|].
  - cbn [map fst]. repeat (constructor; [set_solver|]). constructor.
  - split; [by right; left|by do 4 right; left].
Qed.
Lemma case_error_document : exists w o x, serves (case_env 1 rand1) case_server bad_grant w /\ error_document w 400 "invalid_request" /\
  json_object w o /\ In ("error_description", JStr x) o.
Proof.
  eexists _, _, _. split; [eexists; vm_compute; reflexivity|].
  assert (forall (A B C : Prop), B -> (B -> A) -> C -> A /\ B /\ C) as Hx by tauto.
  apply Hx; [split; [vm_compute; reflexivity|]| |by right; left].
  - cbn [map fst]. repeat (constructor; [set_solver|]). constructor.
  - intros Hb. split; [vm_compute; reflexivity|]. split; [vm_compute; reflexivity|]. eexists. split; [exact Hb|by left].
Qed.
