(** The concrete answers of C79. *)
From Verif.Model Require Import Server Client.
From Verif.Spec Require Import ScopeSpec WireSpec RequestSpec FormSpec ClientSpec DocumentSpec Cases ClientCases DocumentCases.
From Verif.Proof Require Import StrFacts WireFacts MediaProofs DocumentFacts DocumentProofs.
Import TextSpec.

#[local] Open Scope string_scope.

Lemma json_cases : json_typed (rs_ctype odd_reply) /\ json_typed (rs_ctype wrong_reply) /\ json_typed (rs_ctype comma_reply) /\
  json_typed (rs_ctype extra_reply) /\ ~ json_typed (rs_ctype html_reply).
Proof. unfold json_typed. rewrite <- !content_type_spec. split_and!; vm_compute; [reflexivity..|discriminate]. Qed.
Lemma odd_answer : token_answer odd_reply 2048 odd_token.
Proof. apply c79_token. vm_compute. reflexivity. Qed.
Lemma wrong_answer t : ~ token_answer wrong_reply 2048 t.
Proof. rewrite <- c79_token. vm_compute. discriminate. Qed.
Lemma comma_answer t : ~ token_answer comma_reply 2048 t.
Proof. rewrite <- c79_token. vm_compute. discriminate. Qed.
Lemma html_answer t : ~ token_answer html_reply 2048 t.
Proof. rewrite <- c79_token. vm_compute. discriminate. Qed.

Lemma extra_says j : body_says extra_reply 2048 j <-> j = extra_document.
Proof.
  rewrite body_says_parse. assert (E : json_parse (fst (read_limited extra_reply 2048)) = Some extra_document) by (vm_compute; reflexivity).
  rewrite E. split; [by intros [= <-]|by intros ->].
Qed.
Lemma extra_short : short_numbers extra_document.
Proof.
  intros s Hs. assert (In s ["2"; "1e2"; "3.0"]) as [<-|[<-|[<-|[]]]] by
    (repeat match goal with
     | H : In _ (map _ _) |- _ => cbn [map] in H
     | H : In _ (_ :: _) |- _ => destruct H as [H|H]
     | H : In _ [] |- _ => destruct H
     | H : (_, _) = (_, _) |- _ => injection H as ? ?; subst
     | H : number_in _ (_ _) |- _ => inversion H; clear H; subst
     | H : number_in _ extra_document |- _ => unfold extra_document in H
     end; cbn [In]; try tauto; try discriminate);
  vm_compute; discriminate.
Qed.
Lemma extra_all_short j : body_says extra_reply 2048 j -> short_numbers j.
Proof. intros H. apply extra_says in H as ->. exact extra_short. Qed.
Lemma extra_answer : introspection_answer extra_reply 2048 extra_response.
Proof. apply c79_introspection; [exact extra_all_short|]. vm_compute. reflexivity. Qed.
Lemma error_refusal : refusal error_reply 2048 (GErr error_value).
Proof. apply c79_error. vm_compute. reflexivity. Qed.
