(** Facts about the concrete history and the counterexample to C37. *)
From Verif.Model Require Import Server History.
From Verif.Spec Require Import TokenSpec ScopeSpec WireSpec RequestSpec ServerSpec HistorySpec Cases HistoryCases.
From Verif.Proof Require Import WireFacts Steps ServerFacts ServerProofs GrantProofs EffectProofs CaseProofs Effects HistoryFacts HistoryProofs.

#[local] Opaque handle parse_token.

Lemma case_setup : history case_config setup case_server.
Proof.
  change case_server with (fst (do_op (st_after setup2) (SetUser "u1" case_user))). apply run_step.
  change (st_after setup2) with (fst (do_op (st_after setup1) (SetClient "c1" case_client))). apply run_step.
  change (st_after setup1) with (fst (do_op (new_server case_config) (SetClient "c2" case_public_client))). apply run_step.
  apply run_nil.
Qed.
Lemma case_serve l s ev r : history case_config l s -> history case_config (step_of s (Serve ev r) :: l) (after (handle ev s r)).
Proof. intros H. unfold after. rewrite <- step_serve. by apply run_step. Qed.
Lemma case_history1 : history case_config history1 (after step1).
Proof. apply case_serve, case_setup. Qed.
Lemma case_history2 : history case_config history2 (after step2).
Proof. apply case_serve, case_history1. Qed.
Lemma case_history3 : history case_config history3 (after step3).
Proof. apply case_serve, case_history2. Qed.

Lemma access_answer res : access_of res <> "" ->
  exists s t, res = Done s (OToken t) /\ access_of res = tr_access_token t /\ refresh_of res = tr_refresh_token t.
Proof. destruct res as [s [ | t| | | | | ]|]; try done. intros _. by exists s, t. Qed.
Lemma code_answer res : code_of res <> "" -> exists s c, res = Done s (OCode c) /\ code_of res = cr_code c.
Proof. destruct res as [s [ | |c | | | | ]|]; try done. intros _. by exists s, c. Qed.

Lemma fact1 : code_of step1 <> "".
Proof. vm_compute. discriminate. Qed.
Lemma fact2 : access_of step2 <> "".
Proof. vm_compute. discriminate. Qed.
Lemma fact3 : access_of step3 <> "".
Proof. vm_compute. discriminate. Qed.
Lemma names1 : names (cfg_secret case_config) (code_of step1) (sig_of (code_of step1)).
Proof. apply case_names. vm_compute. discriminate. Qed.
Lemma names2 : names (cfg_secret case_config) (access_of step2) (sig_of (access_of step2)).
Proof. apply case_names. vm_compute. discriminate. Qed.
Lemma names2r : names (cfg_secret case_config) (refresh_of step2) (sig_of (refresh_of step2)).
Proof. apply case_names. vm_compute. discriminate. Qed.
Lemma names3 : names (cfg_secret case_config) (access_of step3) (sig_of (access_of step3)).
Proof. apply case_names. vm_compute. discriminate. Qed.
Lemma distinct3 : sig_of (access_of step2) <> sig_of (access_of step3).
Proof. vm_compute. discriminate. Qed.
Lemma distinct3r : sig_of (refresh_of step2) <> sig_of (refresh_of step3).
Proof. vm_compute. discriminate. Qed.
Lemma presented2 : presents_code (cfg_secret case_config) (redeem_request case_auth (code_of step1)) (sig_of (code_of step1)).
Proof.
  split; [apply (case_endpoint _ _ "token")|]. split; [vm_compute; reflexivity|].
  replace (body_param _ "code") with (code_of step1) by (vm_compute; reflexivity). exact names1.
Qed.
Lemma presented3 : presents_refresh (cfg_secret case_config) (refresh_request case_auth (refresh_of step2)) (sig_of (refresh_of step2)).
Proof.
  split; [apply (case_endpoint _ _ "token")|]. split; [vm_compute; reflexivity|].
  replace (body_param _ "refresh_token") with (refresh_of step2) by (vm_compute; reflexivity). exact names2r.
Qed.
Lemma served1 : exists s c, step1 = Done s (OCode c) /\ code_of step1 = cr_code c /\
  served case_x1 (case_env 1000 rand1) (authorize_request "code" "xyz" "u1" "p1") (OCode c).
Proof. destruct (code_answer _ fact1) as (s & c & H & H1). exists s, c. split; [done|]. split; [done|]. apply served_step. split; [reflexivity|exists s; exact H]. Qed.
Lemma served2 : exists s t, step2 = Done s (OToken t) /\ access_of step2 = tr_access_token t /\ refresh_of step2 = tr_refresh_token t /\
  served case_x2 (case_env 1001 rand2) (redeem_request case_auth (code_of step1)) (OToken t).
Proof. destruct (access_answer _ fact2) as (s & t & H & H1 & H2). exists s, t. do 3 (split; [done|]). apply served_step. split; [reflexivity|exists s; exact H]. Qed.
Lemma served3 : exists s t, step3 = Done s (OToken t) /\ access_of step3 = tr_access_token t /\ refresh_of step3 = tr_refresh_token t /\
  served case_x3 (case_env 1002 rand3) (refresh_request case_auth (refresh_of step2)) (OToken t).
Proof. destruct (access_answer _ fact3) as (s & t & H & H1 & H2). exists s, t. do 3 (split; [done|]). apply served_step. split; [reflexivity|exists s; exact H]. Qed.

Lemma issued_code1 : issues_code (cfg_secret case_config) case_x1 (sig_of (code_of step1)).
Proof.
  destruct served1 as (s & c & _ & H & Hs). eexists _, _, _. split; [exact Hs|]. exists c. split; [reflexivity|]. rewrite <- H. exact names1.
Qed.
Lemma redeemed2 : redeems_code (cfg_secret case_config) case_x2 (sig_of (code_of step1)).
Proof. destruct served2 as (s & t & _ & _ & _ & Hs). eexists _, _, _. split; [exact Hs|exact presented2]. Qed.
Lemma issued_access2 : issues_access (cfg_secret case_config) case_x2 (sig_of (access_of step2)).
Proof.
  destruct served2 as (s & t & _ & H & _ & Hs). eexists _, _, _. split; [exact Hs|]. exists t. split; [reflexivity|]. rewrite <- H. exact names2.
Qed.
Lemma issued_refresh2 : issues_refresh (cfg_secret case_config) case_x2 (sig_of (refresh_of step2)).
Proof.
  destruct served2 as (s & t & _ & _ & H & Hs). eexists _, _, _. split; [exact Hs|]. exists t. split; [reflexivity|]. rewrite <- H. exact names2r.
Qed.
Lemma redeemed3 : redeems_refresh (cfg_secret case_config) case_x3 (sig_of (refresh_of step2)).
Proof. destruct served3 as (s & t & _ & _ & _ & Hs). eexists _, _, _. split; [exact Hs|exact presented3]. Qed.
Lemma issued_access3 : issues_access (cfg_secret case_config) case_x3 (sig_of (access_of step3)).
Proof.
  destruct served3 as (s & t & _ & H & _ & Hs). eexists _, _, _. split; [exact Hs|]. exists t. split; [reflexivity|]. rewrite <- H. exact names3.
Qed.
(** What the other steps do not do. *)
Lemma setup_silent x ev r o : In x setup -> ~ served x ev r o.
Proof. intros Hx [Hs _]. by destruct Hx as [<-|[<-|[<-|[]]]]. Qed.
Lemma not_issued_access3 : ~ issues_access (cfg_secret case_config) case_x3 (sig_of (access_of step2)).
Proof.
  intros (ev & r & o & Hs & t & -> & Hn). destruct served3 as (s & t' & _ & H & _ & Hs').
  destruct (served_fun _ _ _ _ _ _ _ Hs Hs') as (_ & _ & [= ->]). rewrite <- H in Hn. apply case_names_fun in Hn. exact (distinct3 Hn).
Qed.
Lemma not_issued_refresh3 : ~ issues_refresh (cfg_secret case_config) case_x3 (sig_of (refresh_of step2)).
Proof.
  intros (ev & r & o & Hs & t & -> & Hn). destruct served3 as (s & t' & _ & _ & H & Hs').
  destruct (served_fun _ _ _ _ _ _ _ Hs Hs') as (_ & _ & [= ->]). rewrite <- H in Hn. apply case_names_fun in Hn. exact (distinct3r Hn).
Qed.
Lemma code_answer_1 ev r t : ~ served case_x1 ev r (OToken t).
Proof. intros Hs. destruct served1 as (s & c & _ & _ & Hs'). by destruct (served_fun _ _ _ _ _ _ _ Hs Hs') as (_ & _ & ?). Qed.
Lemma counts_setup (P : step -> Prop) : (forall x, P x -> exists ev r o, served x ev r o) -> counts P setup 0.
Proof.
  intros HP. repeat apply counts_no; try apply counts_nil; intros Hx; apply HP in Hx as (ev & r & o & Hs);
    (eapply setup_silent; [|exact Hs]); cbn; tauto.
Qed.
Lemma counts_refresh : 
  counts (fun x => redeems_refresh (cfg_secret case_config) x (sig_of (refresh_of step2))) history3 1 /\
  counts (fun x => issues_refresh (cfg_secret case_config) x (sig_of (refresh_of step2))) history3 1.
Proof.
  split.
  - apply counts_yes; [exact redeemed3|]. apply counts_no; [|apply counts_no].
    + intros (ev & r & t & Hs & _ & Hg & _). destruct served2 as (s & t' & _ & _ & _ & Hs').
      destruct (served_fun _ _ _ _ _ _ _ Hs Hs') as (_ & -> & _). destruct presented2 as (_ & Hg' & _). rewrite Hg' in Hg. discriminate Hg.
    + intros (ev & r & t & Hs & _). by eapply code_answer_1.
    + apply counts_setup. intros x (ev & r & t & Hs & _). eauto.
  - apply counts_no; [apply not_issued_refresh3|]. apply counts_yes; [exact issued_refresh2|]. apply counts_no.
    + intros (ev & r & o & Hs & t & -> & _). by eapply code_answer_1.
    + apply counts_setup. intros x (ev & r & o & Hs & _). eauto.
Qed.
Lemma counts_code :
  counts (fun x => redeems_code (cfg_secret case_config) x (sig_of (code_of step1))) history2 1 /\
  counts (fun x => issues_code (cfg_secret case_config) x (sig_of (code_of step1))) history2 1.
Proof.
  split.
  - apply counts_yes; [exact redeemed2|]. apply counts_no.
    + intros (ev & r & t & Hs & _). by eapply code_answer_1.
    + apply counts_setup. intros x (ev & r & t & Hs & _). eauto.
  - apply counts_no; [|apply counts_yes; [exact issued_code1|]].
    + intros (ev & r & o & Hs & c & -> & _). destruct served2 as (s & t' & _ & _ & _ & Hs').
      by destruct (served_fun _ _ _ _ _ _ _ Hs Hs') as (_ & _ & ?).
    + apply counts_setup. intros x (ev & r & o & Hs & _). eauto.
Qed.

(** ** The replay *)
Lemma refused ev s : ev = case_env 1003 rand3 -> (exists s' e, handle ev s (redeem_request case_auth (code_of step1)) = Done s' (OError e) /\
    e_name e = "invalid_grant" /\ e_description e = "unknown authorization code") ->
  refused_as_unknown (cfg_secret case_config) (step_of s replay_op) (sig_of (code_of step1)).
Proof.
  intros -> (s' & e & H & H1 & H2). exists (case_env 1003 rand3), (redeem_request case_auth (code_of step1)), e.
  split; [apply served_step; split; [reflexivity|exists s'; exact H]|]. split; [exact presented2|split; [exact H1|exact H2]].
Qed.
Lemma replayed4 : refused_as_unknown (cfg_secret case_config) case_x4 (sig_of (code_of step1)).
Proof. apply (refused (case_env 1003 rand3) (after step3) eq_refl). eexists _, _. split; [vm_compute; reflexivity|]. split; reflexivity. Qed.
Lemma replayed3 : refused_as_unknown (cfg_secret case_config) case_y3 (sig_of (code_of step1)).
Proof. apply (refused (case_env 1003 rand3) (after step2) eq_refl). eexists _, _. split; [vm_compute; reflexivity|]. split; reflexivity. Qed.
Lemma case_history4 : history case_config (case_x4 :: history3) (st_after case_x4).
Proof. apply run_step. exact case_history3. Qed.
Lemma replay_history3 : history case_config (case_y3 :: history2) (st_after case_y3).
Proof. apply run_step. exact case_history2. Qed.
Lemma last_access2 y : ~ issues_access (cfg_secret case_config) y (sig_of (access_of step2)) ->
  last_step (fun z => issues_access (cfg_secret case_config) z (sig_of (access_of step2))) (y :: history2) case_x2 [y].
Proof. intros Hy. exists history1. split; [done|]. split; [exact issued_access2|]. by intros z [<-|[]]. Qed.
Lemma not_issued_replay sg : ~ issues_access (cfg_secret case_config) case_y3 sg.
Proof.
  intros (ev & r & o & Hs & t & -> & _). destruct replayed3 as (ev' & r' & e & Hs' & _).
  by destruct (served_fun _ _ _ _ _ _ _ Hs Hs') as (_ & _ & ?).
Qed.

Lemma case_lookup_names : names (cfg_secret case_config)
  (body_param (lookup_request "/oauth2/introspect" case_auth (access_of step2)) "token") (sig_of (access_of step2)).
Proof.
  assert (H : body_param (lookup_request "/oauth2/introspect" case_auth (access_of step2)) "token" = access_of step2) by (vm_compute; reflexivity).
  rewrite H. exact names2.
Qed.

(** C37: the access token obtained by refreshing survives the replay. *)
Lemma c37_refuted : exists cfg setup x1 x2 x3 x4 s k f a str,
  history cfg (x4 :: x3 :: x2 :: x1 :: setup) s /\
  issues_code (cfg_secret cfg) x1 k /\
  redeems_code (cfg_secret cfg) x2 k /\ issues_refresh (cfg_secret cfg) x2 f /\
  redeems_refresh (cfg_secret cfg) x3 f /\ issues_access (cfg_secret cfg) x3 a /\ names (cfg_secret cfg) str a /\
  refused_as_unknown (cfg_secret cfg) x4 k /\
  authorize (1004 * second) s (bearer_request str) (Some ["read"]) new_rw = Some (true, new_rw).
Proof.
  exists case_config, setup, case_x1, case_x2, case_x3, case_x4, (st_after case_x4),
    (sig_of (code_of step1)), (sig_of (refresh_of step2)), (sig_of (access_of step3)), (access_of step3).
  split; [exact case_history4|]. split; [exact issued_code1|]. split; [exact redeemed2|]. split; [exact issued_refresh2|].
  split; [exact redeemed3|]. split; [exact issued_access3|]. split; [exact names3|]. split; [exact replayed4|].
  vm_compute. reflexivity.
Qed.
