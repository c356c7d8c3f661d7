(** The concrete cases of C78. *)
From Verif.Model Require Import HttpClient.
From Verif.Spec Require Import ScopeSpec WireSpec RequestSpec ServerSpec ClientSpec TransportSpec DefaultSpec Cases ClientCases TransportCases.
From Verif.Proof Require Import StrFacts Redirect.

#[local] Open Scope string_scope.

Lemma case_base : base_uri "https://s.example".
Proof.
  eexists. split; [vm_compute; reflexivity|]. cbn [u_scheme u_host].
  split; [cbn; tauto|]. split; [vm_compute; discriminate|]. split; by apply without_contains.
Qed.
Lemma case_base_port : base_uri "https://s.example:8443/api".
Proof.
  eexists. split; [vm_compute; reflexivity|]. cbn [u_scheme u_host].
  split; [cbn; tauto|]. split; [vm_compute; discriminate|]. split; by apply without_contains.
Qed.
Lemma case_default_call : exists r s' t t', build_token_request ("https://s.example" +:+ "/oauth2/token") case_token_query = Some r /\
    handle (case_env 1000 (rand1 +:+ rand2)) case_server r = Done s' (OToken t) /\ scope_bytes (tr_scope t) <= 150 /\
    one_message (authenticate_over 3 plain_client case_network (default_client "https://s.example") case_token_query) (inl t').
Proof.
  do 4 eexists. split; [vm_compute; reflexivity|]. split; [vm_compute; reflexivity|].
  split; [apply Nat.leb_le; vm_compute; reflexivity|]. eexists. vm_compute. reflexivity.
Qed.
