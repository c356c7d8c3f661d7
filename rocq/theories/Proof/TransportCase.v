(** The concrete cases of C76 and C77. *)
From Verif.Model Require Import HttpClient.
From Verif.Spec Require Import ScopeSpec WireSpec RequestSpec ServerSpec ClientSpec TransportSpec Cases ClientCases TransportCases.
From Verif.Proof Require Import StrFacts UrlFacts UrlParse Redirect RequestProofs RequestParse ServerFacts ClientCase TransportFacts TransportProofs ArrivalProofs.

#[local] Open Scope string_scope.

(** ** C76 is false: a redirect takes the password, or the client secret, elsewhere *)

Definition elsewhere (w : message) (uri : string) : bool :=
  match url_parse uri with
  | Some u => negb (seqb (u_scheme (ms_url w)) (u_scheme u)) ||
              (negb (seqb (u_host u) (u_host (ms_url w))) && negb (seqb (u_host u) (u_host (ms_url w) +:+ ":")))
  | None => true
  end.
Lemma elsewhere_spec w uri : elsewhere w uri = true -> ~ goes_to uri w.
Proof.
  unfold elsewhere. intros H (u & Hu & H1 & H2). rewrite Hu, H1, seqb_refl in H. cbn [negb orb] in H.
  apply andb_true_iff in H as [H3 H4]. apply negb_true_iff, seqb_false in H3, H4. tauto.
Qed.

Lemma c76_refuted : exists net c k w,
  In w (messages 10 plain_client net c k) /\ ~ goes_to (endpoint_of c k) w /\
  endpoint_of c k = "https://s.example/oauth2/token" /\ url_string (ms_url w) = "http://other.example/x" /\
  carries_parameters w k /\ vget (parameters k) "password" = "p1".
Proof.
  exists forwarding, case_client_config, case_password_call.
  destruct (messages 10 plain_client forwarding case_client_config case_password_call) as [|w0 [|w l]] eqn:E;
    [vm_compute in E; discriminate E..|].
  exists w. split; [right; by left|]. vm_compute in E. injection E as _ <- _.
  split; [apply elsewhere_spec; vm_compute; reflexivity|]. split; [vm_compute; reflexivity|].
  split; [vm_compute; reflexivity|]. split; vm_compute; reflexivity.
Qed.
Lemma c76_secret_refuted : exists net c k w,
  In w (messages 10 plain_client net c k) /\ ~ goes_to (endpoint_of c k) w /\
  endpoint_of c k = "https://s.example/oauth2/token" /\ url_string (ms_url w) = "https://other.example/2" /\
  carries_secret w k /\ client_of k = ("c1", "s1").
Proof.
  exists twice_redirecting, case_client_config, case_password_call.
  destruct (messages 10 plain_client twice_redirecting case_client_config case_password_call) as [|w0 [|w1 [|w l]]] eqn:E;
    [vm_compute in E; discriminate E..|].
  exists w. split; [right; right; by left|]. vm_compute in E. injection E as _ _ <- _.
  split; [apply elsewhere_spec; vm_compute; reflexivity|]. split; [vm_compute; reflexivity|].
  split; [vm_compute; reflexivity|]. split; vm_compute; reflexivity.
Qed.

(** ** Cases *)

Lemma case_moving : (forall l w a u, moving (l ++ [w])%list = Some a -> redirects a -> parse_reference (ms_url w) (rp_location a) = Some u ->
     u_scheme u = u_scheme (ms_url w) /\ u_host u = u_host (ms_url w)) /\
  map (fun w => url_string (ms_url w)) (messages 10 plain_client moving case_client_config case_password_call)
    = ["https://s.example/oauth2/token"; "https://s.example/v2/token"].
Proof.
  split; [|vm_compute; reflexivity]. intros l w a u Ha Hr Hu.
  assert (a = plain_reply 308 "../v2/token") as ->.
  { destruct l as [|x l]; [by injection Ha as <-|]. destruct l as [|y l]; cbn in Ha; injection Ha as <-;
      unfold redirects in Hr; cbn in Hr; lia. }
  cbn [plain_reply rp_location] in Hu.
  destruct (url_parse "../v2/token") as [r|] eqn:E; [|vm_compute in E; discriminate E].
  assert (Hr3 : u_scheme r = "" /\ u_host r = "" /\ u_user r = None) by (vm_compute in E; injection E as <-; done).
  destruct Hr3 as (R1 & R2 & R3). exact (c76_relative _ _ _ _ E R1 R2 R3 Hu).
Qed.

Lemma case_sendable : sendable "https://s.example/oauth2/token".
Proof.
  eexists. split; [vm_compute; reflexivity|]. cbn [u_scheme u_host u_path u_rawquery].
  split; [cbn; tauto|]. split; [vm_compute; discriminate|]. split; [discriminate|]. by apply without_contains.
Qed.
Lemma case_first_answered : first_answered case_network (case_env 1000 (rand1 +:+ rand2)) case_server.
Proof. intros w. reflexivity. Qed.
