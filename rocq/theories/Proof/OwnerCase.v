(** The concrete history of OwnerCases.v. *)
From Verif.Model Require Import Server History Concurrent Owner.
From Verif.Spec Require Import ScopeSpec RequestSpec ServerSpec HistorySpec Cases HistoryCases OwnerSpec OwnerCases.
From Verif.Proof Require Import ScopeFacts CaseProofs HistoryCase OwnerProofs.
#[local] Opaque handle parse_token authorize.

Lemma owner_owned : owned owner_events owner_server.
Proof. unfold owner_events, owner_server. cbn [app]. apply owned_config, owned_config, owned_store, (history_owned case_config). exact case_history2. Qed.
Lemma owner_bearer : bearer (bearer_request (access_of step2)) (access_of step2).
Proof. apply case_bearer. exact fact2. Qed.
Lemma owner_accepts : exists w, authorize (8999 * second) owner_server (bearer_request (access_of step2)) (Some ["admin"]) new_rw = Some (true, w).
Proof.
  unfold owner_server.
  apply (stored_accepted (map Called history2) (after step2) (sig_of (access_of step2)) extended other_config strict_config
           (8999 * second) (bearer_request (access_of step2)) (access_of step2) (Some ["admin"]) new_rw).
  - apply (history_owned case_config). exact case_history2.
  - exact owner_bearer.
  - exact names2.
  - vm_compute. discriminate.
  - intros x Hx. exact Hx.
Qed.
