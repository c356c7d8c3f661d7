(** Concrete refusals. *)
From Verif.Model Require Import Server.
From Verif.Spec Require Import TokenSpec ScopeSpec WireSpec RequestSpec ServerSpec Cases RefusalSpec RefusalCases.
From Verif.Proof Require Import StrFacts ServerFacts Steps ServerProofs GrantProofs CaseProofs RefusalProofs.

Definition code_is (res : result) (code : Z) (name : string) : Prop :=
  match res with Done _ (OError e) => e_status e = code /\ e_name e = name | _ => False end.
Lemma case_token ev s r code name : endpoint r "token" -> code_is (handle ev s r) code name -> token_refusal ev s r code name.
Proof.
  intros He H. destruct (handle ev s r) as [s' o|s'] eqn:Hh; [|done]. destruct o; try done. destruct H as [<- <-].
  by eapply decided_token_refusal.
Qed.
Lemma case_refusals :
  token_refusal (case_env 1 rand1) case_server bad_password 403 "access_denied" /\
  token_refusal (case_env 1 rand1) case_server bad_grant 400 "invalid_request" /\
  token_refusal (case_env 1 rand1) case_server (password_request case_auth "read admin") 400 "invalid_scope" /\
  token_refusal (case_env 1 rand1) case_server (password_request "" "read") 400 "invalid_request" /\
  token_refusal (case_env 1 rand1) case_server (password_request (basic_auth_header "c1" "x") "read") 401 "invalid_client" /\
  token_refusal (case_env 1 rand1) case_server (client_request case_auth2) 401 "invalid_client" /\
  token_refusal (case_env 1002 rand3) (after step2) (redeem_request case_auth (code_of step1)) 400 "invalid_grant" /\
  token_refusal (case_env 1002 rand3) (after step2) (redeem_request case_auth "nonsense") 400 "invalid_request" /\
  token_refusal (case_env 1002 rand3) (after step2) (refresh_request case_auth2 (refresh_of step2)) 400 "invalid_grant".
Proof.
  repeat split; try (apply case_token; [apply (case_endpoint _ _ "token")|vm_compute; split; reflexivity]).
Qed.
Lemma case_lookup_refusals :
  lookup_refusal (after step2) (lookup_request "/oauth2/introspect" case_auth2 (access_of step2)) 401 "invalid_client" /\
  lookup_refusal (after step2) (post_to "/oauth2/revoke" case_auth [("token", access_of step2); ("token_type_hint", "magic")])
    400 "unsupported_token_type".
Proof.
  split.
  - apply (refuse_lookup_owner _ _ "c2").
    + split; [eexists; vm_compute; reflexivity|left; vm_compute; reflexivity].
    + apply case_from2; vm_compute; reflexivity.
    + eapply foreign_spec; [vm_compute; reflexivity|]. eexists. split; [left; vm_compute; reflexivity|vm_compute; discriminate].
  - eapply refuse_lookup_hint; [vm_compute; reflexivity|]. vm_compute. intros [H|[H|[H|[]]]]; discriminate H.
Qed.
Lemma case_authorization_refusals :
  authorization_refusal case_server (authorize_request "magic" "xyz" "u1" "p1") 400 "invalid_request" /\
  complete_authorization case_server (authorize_request "token" "xyz" "u1" "x") /\
  rq_method (authorize_request "token" "xyz" "u1" "x") = "POST" /\
  redirected_refusal case_server (authorize_request "token" "xyz" "u1" "x") "access_denied".
Proof.
  split; [apply refuse_response_type; vm_compute; intros [H|[H|[]]]; discriminate H|].
  split; [|split; [reflexivity|]].
  - split; [apply (case_endpoint _ _ "authorize")|]. split; [eexists; vm_compute; reflexivity|].
    split; [left; vm_compute; reflexivity|]. exists case_client. split; vm_compute; reflexivity.
  - apply refuse_owner; [apply covers_spec; vm_compute; reflexivity|]. apply not_password. vm_compute. reflexivity.
Qed.
