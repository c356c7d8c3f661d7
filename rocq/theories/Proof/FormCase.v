(** The hypotheses of C75 are met. *)
From Verif.Model Require Import Server.
From Verif.Spec Require Import WireSpec FormSpec FormCases.
From Verif.Proof Require Import StrFacts WireFacts MediaProofs FormProofs.

Lemma typed_case_ok : form_typed typed_case.
Proof. apply content_type_spec. vm_compute. reflexivity. Qed.
Lemma ill_typed_cases : ill_typed ill_typed_case1 /\ ill_typed ill_typed_case2.
Proof.
  split; (split; [done|]); intros t H; apply content_type_spec in H; vm_compute in H; discriminate H.
Qed.
Lemma case_carries : carries form_case form_case_body form_case_query.
Proof.
  split; [done|]. split; [apply says_pairs; vm_compute; reflexivity|]. right. split; [by left|].
  eexists _, true. split; [reflexivity|]. left. split; [exact typed_case_ok|]. split; [done|].
  split; [cbn; lia|]. apply says_pairs; vm_compute; reflexivity.
Qed.
Lemma case_carries_nothing : carries (form_request "a=1" "application/json" "{}" false) [] [("a", "1")].
Proof.
  split; [done|]. split; [apply says_pairs; vm_compute; reflexivity|]. right. split; [by left|].
  eexists _, false. split; [reflexivity|]. right. split; [|done]. right. exists "application/json".
  split; [discriminate|]. apply content_type_spec. vm_compute. reflexivity.
Qed.
Lemma case_unreadable :
  unreadable (form_request "" typed_case "a=%zz" true) /\
  unreadable (form_request "" typed_case "a=1" false) /\
  unreadable (form_request "a=%4" typed_case "a=1" true) /\
  unreadable (form_request "" ill_typed_case1 "a=1" true) /\
  unreadable (form_request "" ill_typed_case2 "{}" true).
Proof.
  assert (H : forall t, pairs_of (Url.split_pairs t) = None -> ~ exists l, says t l).
  { intros t Ht (l & Hl). apply says_pairs in Hl. by rewrite Hl in Ht. }
  split_and!; (split; [done|]).
  - right. split; [by left|]. right. eexists _, true. split; [reflexivity|]. right. split; [exact typed_case_ok|].
    right; right. apply H. reflexivity.
  - right. split; [by left|]. right. eexists _, false. split; [reflexivity|]. right. split; [exact typed_case_ok|]. by left.
  - left. apply H. reflexivity.
  - right. split; [by left|]. right. eexists _, true. split; [reflexivity|]. left. exact (proj1 ill_typed_cases).
  - right. split; [by left|]. right. eexists _, true. split; [reflexivity|]. left. exact (proj2 ill_typed_cases).
Qed.
Lemma case_token : exists q, parse_token_request form_case = inl q /\ tq_username q = "user 1" /\ tq_password q = "pw=1".
Proof. eexists. split; [vm_compute; reflexivity|]. by split. Qed.
Lemma content_type_cases :
  typed form_type typed_case /\ typed "text/html" "text/HTML" /\ typed "attachment" " attachment;" /\
  ill_typed ill_typed_case1 /\ ill_typed ill_typed_case2 /\ ill_typed "text/" /\ ill_typed "text/html; charset=""utf-8".
Proof.
  rewrite <- !content_type_spec. split; [vm_compute; reflexivity|]. split; [vm_compute; reflexivity|]. split; [vm_compute; reflexivity|].
  split; [exact (proj1 ill_typed_cases)|]. split; [exact (proj2 ill_typed_cases)|].
  split; (split; [done|]); intros t H; apply content_type_spec in H; vm_compute in H; discriminate H.
Qed.
