(** A run of the suite that passes has seen the wanted exchanges: every handler,
    not only the one of the package. *)
From Verif.Model Require Import Client Suite.
From Verif.Spec Require Import SuiteSpec.
From Verif.Proof Require Import StrFacts.

Lemma seen_drop e W L : seen (e :: W) L -> seen W L.
Proof.
  revert e W. induction L as [|x L IH]; intros e W H; inversion H; subst.
  - by apply seen_later.
  - apply seen_later. by apply (IH e).
Qed.
Lemma seen_drop_app V W L : seen (V ++ W) L -> seen W L.
Proof. induction V as [|e V IH]; [done|]. intros H. apply IH. by apply seen_drop in H. Qed.

Section Sound.
Context {S : Type} (h : handler S).
Notation ok evs s p := (passed (run_suite h evs s p)).
Notation ex := (exchanges h).

Lemma pass_check evs s b p : ok evs s (Check b p) -> b = true /\ ok evs s p.
Proof.
  intros [H1 H2]. cbn in H1, H2. apply Forall_cons in H1 as [? ?]. split; [done|by split].
Qed.
Lemma pass_crash evs s : ok evs s Crash -> False.
Proof. intros [_ H]. discriminate H. Qed.
Lemma pass_send evs s q k : ok evs s (Send q k) ->
  exists evs' s' w, ex evs s (Send q k) = (q, w) :: ex evs' s' (k w) /\ ok evs' s' (k w).
Proof.
  intros H. cbn [run_suite exchanges] in *.
  destruct (do_request q) as [r|]; [|by destruct H].
  destruct evs as [|ev evs]; [by destruct H|].
  destruct (h ev s r) as [s' [w|]] eqn:E; [|by destruct H]. by eexists _, _, _.
Qed.
Lemma pass_some evs s v f p : ok evs s (check_some v f p) ->
  exists x, v = Some x /\ f x = true /\ ok evs s p.
Proof.
  destruct v as [x|]; cbn [check_some]; intros H; [|by destruct (pass_crash _ _ H)].
  apply pass_check in H as [? ?]. by exists x.
Qed.
Lemma pass_must evs s b p : ok evs s (must b p) -> b = true /\ ok evs s p.
Proof. destruct b; cbn [must]; intros H; [done|by destruct (pass_crash _ _ H)]. Qed.

(** From one point of a run to a later one, having seen the wanted exchanges. *)
Definition reach evs s p want evs' s' p' : Prop :=
  ok evs' s' p' /\ forall W, seen W (ex evs' s' p') -> seen (want ++ W) (ex evs s p).

Lemma reach_refl evs s p : ok evs s p -> reach evs s p [] evs s p.
Proof. intros H. by split. Qed.
Lemma reach_trans evs s p w evs1 s1 p1 w' evs2 s2 p2 :
  reach evs s p w evs1 s1 p1 -> reach evs1 s1 p1 w' evs2 s2 p2 ->
  reach evs s p (w ++ w') evs2 s2 p2.
Proof.
  intros [_ H1] [Hok H2]. split; [done|]. intros W HW. rewrite <- app_assoc. by apply H1, H2.
Qed.
Lemma reach_eq evs s p w w' evs1 s1 p1 :
  reach evs s p w evs1 s1 p1 -> w = w' -> reach evs s p w' evs1 s1 p1.
Proof. by intros ? <-. Qed.
Lemma reach_less evs s p w evs1 s1 p1 :
  reach evs s p w evs1 s1 p1 -> reach evs s p [] evs1 s1 p1.
Proof.
  intros [H1 H2]. split; [done|]. intros W HW. apply (seen_drop_app w). by apply H2.
Qed.
Lemma reach_here evs s q k evs1 s1 w (P : rw -> Prop) p :
  ex evs s (Send q k) = (q, w) :: ex evs1 s1 (k w) -> P w ->
  ex evs1 s1 (k w) = ex evs1 s1 p -> ok evs1 s1 p ->
  reach evs s (Send q k) [(q, P)] evs1 s1 p.
Proof. intros H1 HP H2 Hok. split; [done|]. intros W HW. rewrite H1, H2. by apply seen_here. Qed.

Ltac send H := apply pass_send in H as (?evs & ?s & ?w & ?Hex & H).
Ltac check H Hb := apply pass_check in H as [Hb H].

Lemma some_ex evs s v f p : ok evs s (check_some v f p) ->
  ex evs s (check_some v f p) = ex evs s p.
Proof. destruct v; [done|]. intros H. by destruct (pass_crash _ _ H). Qed.

Lemma pass_match evs s v (k : string -> suite) :
  ok evs s (match v with None => Crash | Some x => Check (not_empty x) (k x) end) ->
  exists x, v = Some x /\ x <> "" /\ ok evs s (k x) /\
    ex evs s (match v with None => Crash | Some x => Check (not_empty x) (k x) end) = ex evs s (k x).
Proof.
  destruct v as [x|]; intros H; [|by destruct (pass_crash _ _ H)]. check H Hb. exists x.
  split; [done|]. split; [|done]. unfold not_empty in Hb. intros ->. discriminate Hb.
Qed.

Lemma not_empty_ne x : not_empty x = true -> x <> "".
Proof. unfold not_empty. intros H ->. discriminate H. Qed.
Lemma through_error evs s q c n p : ok evs s (Send q (expect_error c n p)) ->
  exists evs' s', reach evs s (Send q (expect_error c n p)) [(q, complains c n)] evs' s' p.
Proof.
  intros H. send H. check H Hc. check H Hn. eexists _, _. eapply reach_here; [exact Hex| |reflexivity|exact H].
  split; [by apply Z.eqb_eq|by apply seqb_true].
Qed.
Lemma through_refused evs s q p : ok evs s (Send q (expect_refused p)) ->
  exists evs' s', reach evs s (Send q (expect_refused p)) [(q, turns_away)] evs' s' p.
Proof.
  intros H. send H. check H Hc. check H Hn. pose proof (some_ex _ _ _ _ _ H) as He.
  apply pass_some in H as (x & Hx & Hf & H).
  eexists _, _. eapply reach_here; [exact Hex| |exact He|exact H].
  split; [split; [by apply Z.eqb_eq|by apply seqb_true]|]. exists x. split; [done|by apply not_empty_ne].
Qed.
Lemma through_code evs s q c p : ok evs s (Send q (expect_code c p)) ->
  exists evs' s', reach evs s (Send q (expect_code c p)) [(q, answers c)] evs' s' p.
Proof.
  intros H. send H. check H Hc. eexists _, _. eapply reach_here; [exact Hex| |reflexivity|exact H].
  by apply Z.eqb_eq.
Qed.
Lemma through_bearer evs s q c n p : ok evs s (Send q (expect_bearer_error c n p)) ->
  exists evs' s', reach evs s (Send q (expect_bearer_error c n p)) [(q, challenges c n)] evs' s' p.
Proof.
  intros H. send H. check H Hc. pose proof (some_ex _ _ _ _ _ H) as He.
  apply pass_some in H as (x & Hx & Hf & H). check H Hb.
  eexists _, _. eapply reach_here; [exact Hex| |exact He|exact H].
  split; [by apply Z.eqb_eq|]. split; [rewrite Hx; f_equal; by apply seqb_true|by apply seqb_true].
Qed.
Lemma through_tokens evs s sp q k : ok evs s (Send q (expect_tokens sp k)) ->
  exists access refresh evs' s', refresh <> "" /\
    reach evs s (Send q (expect_tokens sp k)) [(q, hands_out sp access refresh)] evs' s' (k access refresh).
Proof.
  intros H. send H. check H Hc. check H H1. check H H2. check H H3. check H H4. check H H5.
  eexists _, _, _, _. split; [exact (not_empty_ne _ H5)|].
  eapply reach_here; [exact Hex| |reflexivity|exact H].
  split; [by apply Z.eqb_eq|]. split; [reflexivity|]. split; [exact (not_empty_ne _ H4)|].
  split; [reflexivity|]. split; [exact (not_empty_ne _ H5)|].
  split; [by apply seqb_true|]. split; [by apply seqb_true|exact H3].
Qed.
Lemma through_back evs s q rt n p : n <> "" -> ok evs s (Send q (expect_redirected_error rt n p)) ->
  exists evs' s', reach evs s (Send q (expect_redirected_error rt n p))
    [(q, sends_back (loc_param rt) "error" n)] evs' s' p.
Proof.
  intros Hn H. send H. check H Hc. pose proof (some_ex _ _ _ _ _ H) as He.
  apply pass_some in H as (x & Hx & Hf & H). pose proof (some_ex _ _ _ _ _ H) as He2.
  apply pass_some in H as (y & Hy & Hg & H).
  eexists _, _. eapply reach_here; [exact Hex| |exact (eq_trans He He2)|exact H].
  split; [by apply Z.eqb_eq|].
  split; [rewrite Hx; f_equal; by apply seqb_true|]. split; [exact Hn|].
  rewrite Hy; f_equal; by apply seqb_true.
Qed.

Lemma through_back_scope evs s q rt p : ok evs s (Send q (expect_redirected_error rt "invalid_scope" p)) ->
  exists evs' s', reach evs s (Send q (expect_redirected_error rt "invalid_scope" p))
    [(q, sends_back (loc_param rt) "error" "invalid_scope")] evs' s' p.
Proof. by apply through_back. Qed.
Lemma through_back_denied evs s q rt p : ok evs s (Send q (expect_redirected_error rt "access_denied" p)) ->
  exists evs' s', reach evs s (Send q (expect_redirected_error rt "access_denied" p))
    [(q, sends_back (loc_param rt) "error" "access_denied")] evs' s' p.
Proof. by apply through_back. Qed.

(** Take the next step; its fact is named. *)
Tactic Notation "go" hyp(H) constr(L) "as" ident(R) :=
  apply L in H as (?evs & ?s & R); cbv beta in R; pose proof (proj1 R) as H.
(** Put the facts together. *)
Ltac chain :=
  lazymatch goal with
  | R : reach ?e ?s ?p _ _ _ _ |- reach ?e ?s ?p _ _ _ ?p' =>
      first [exact R | eapply reach_trans; [exact R|clear R; chain]]
  end.
Ltac chained := eapply reach_eq; [chain|].
Ltac same := cbn [app]; repeat (rewrite ?app_nil_r, <- ?app_assoc; cbn [app]); reflexivity.

Lemma through_introspects evs s sp t k p : ok evs s (introspects_active sp t k p) ->
  exists evs' s', reach evs s (introspects_active sp t k p)
    (introspected sp t k (reports_alive k)) evs' s' p.
Proof.
  unfold introspects_active, introspected. destruct (seqb _ _).
  - intros H. eexists _, _. by apply reach_refl.
  - intros H. send H. check H H1. check H H2. check H H3. eexists _, _.
    eapply reach_here; [exact Hex| |reflexivity|exact H].
    split; [by apply Z.eqb_eq|]. split; [done|by apply seqb_true].
Qed.
Lemma through_inactive evs s sp t k p : ok evs s (introspects_inactive sp t k p) ->
  exists evs' s', reach evs s (introspects_inactive sp t k p)
    (introspected sp t k reports_dead) evs' s' p.
Proof.
  unfold introspects_inactive, introspected. destruct (seqb _ _).
  - intros H. eexists _, _. by apply reach_refl.
  - intros H. send H. check H H1. check H H2. eexists _, _.
    eapply reach_here; [exact Hex| |reflexivity|exact H].
    split; [by apply Z.eqb_eq|by apply negb_true_iff].
Qed.
Lemma through_refuses evs s sp t p : ok evs s (resource_refuses sp t p) ->
  exists evs' s', reach evs s (resource_refuses sp t p)
    [(with_token sp t,
       fun w => rec_code w = 401%Z /\ auth_param w "error" = Some "invalid_token")] evs' s' p.
Proof.
  intros H. send H. check H Hc. pose proof (some_ex _ _ _ _ _ H) as He.
  apply pass_some in H as (x & Hx & Hf & H). eexists _, _.
  eapply reach_here; [exact Hex| |exact He|exact H].
  split; [by apply Z.eqb_eq|]. rewrite Hx. f_equal. by apply seqb_true.
Qed.

Lemma through_access evs s sp t p : ok evs s (access_token_test sp t p) ->
  exists evs' s', reach evs s (access_token_test sp t p) (access_life sp t) evs' s' p.
Proof.
  unfold access_token_test, access_life. intros H. go H through_code as R1.
  go H through_introspects as R2. destruct (seqb (sp_revocation sp) "").
  - eexists _, _. chained. same.
  - go H through_code as R3. go H through_refuses as R4. go H through_inactive as R5.
    eexists _, _. chained. same.
Qed.

Lemma through_refresh evs s sp t p : ok evs s (refresh_token_test sp t p) ->
  exists access new evs' s',
    reach evs s (refresh_token_test sp t p) (refresh_life sp t access new) evs' s' p.
Proof.
  unfold refresh_token_test, refresh_life. intros H. go H through_introspects as R1.
  apply through_tokens in H as (access & new & ? & ? & _ & R2). cbv beta in R2; pose proof (proj1 R2) as H.
  go H through_access as R3. go H through_error as R4. go H through_inactive as R5.
  destruct (seqb (sp_revocation sp) "") eqn:E.
  - eexists access, new, _, _. chained. same.
  - go H through_code as R6. go H through_error as R7. go H through_inactive as R8.
    eexists access, new, _, _. chained. same.
Qed.

Lemma through_pair evs s sp a r p : r <> "" -> ok evs s (test_tokens sp p a r) ->
  exists access new evs' s', reach evs s (test_tokens sp p a r)
    (access_life sp a ++ refresh_life sp r access new) evs' s' p.
Proof.
  unfold test_tokens. intros Hr H. apply seqb_false in Hr. rewrite Hr in H |- *.
  go H through_access as R1. apply through_refresh in H as (access & new & ? & ? & R2).
  eexists access, new, _, _. chained. same.
Qed.

Lemma through_resource evs s sp p : ok evs s (protected_resource_test sp p) ->
  exists evs' s', reach evs s (protected_resource_test sp p) (seen_resource sp) evs' s' p.
Proof.
  unfold protected_resource_test, seen_resource. intros H.
  send H. check H Hc. pose proof (some_ex _ _ _ _ _ H) as He.
  apply pass_some in H as (x & Hx & Hf & H). check H Hb.
  eassert (R0 : reach _ _ _ [(asks_resource sp ∅, fun w => rec_code w = 401%Z /\ rw_body w = "" /\
      exists realm, auth_param w "realm" = Some realm /\ realm <> "")] _ _ _).
  { eapply reach_here; cycle 3; [exact H|exact Hex| |exact He].
    split; [by apply Z.eqb_eq|]. split; [by apply seqb_true|].
    exists x. split; [done|by apply not_empty_ne]. }
  go H through_bearer as R1. go H through_bearer as R2. go H through_bearer as R3.
  go H through_bearer as R4. go H through_bearer as R5.
  eexists _, _. chained. same.
Qed.

Lemma through_token_endpoint evs s sp p : ok evs s (token_endpoint_test sp p) ->
  exists evs' s', reach evs s (token_endpoint_test sp p) (seen_token_endpoint sp) evs' s' p.
Proof.
  unfold token_endpoint_test, seen_token_endpoint. intros H.
  go H through_error as R1. go H through_error as R2. go H through_error as R3.
  eexists _, _. chained. same.
Qed.
Lemma through_authorization_endpoint evs s sp p : ok evs s (authorization_endpoint_test sp p) ->
  exists evs' s', reach evs s (authorization_endpoint_test sp p) (seen_authorization_endpoint sp) evs' s' p.
Proof.
  unfold authorization_endpoint_test, seen_authorization_endpoint. intros H.
  go H through_error as R1. go H through_refused as R2. go H through_error as R3.
  go H through_error as R4. send H. check H Hc.
  eassert (R5 : reach _ _ _ [(_, fun w => rec_code w <> 404%Z)] _ _ _).
  { eapply reach_here; cycle 3; [exact H|exact Hex| |reflexivity].
    apply negb_true_iff in Hc. by apply Z.eqb_neq. }
  eexists _, _. chained. same.
Qed.
Lemma through_lookup evs s sp path p : ok evs s (lookup_refusals sp path p) ->
  exists evs' s', reach evs s (lookup_refusals sp path p) (seen_lookup sp path) evs' s' p.
Proof.
  unfold lookup_refusals, seen_lookup. intros H.
  go H through_error as R1. go H through_error as R2. go H through_error as R3.
  go H through_error as R4. go H through_refused as R5. go H through_refused as R6.
  go H through_error as R7. go H through_error as R8. go H through_code as R9.
  eexists _, _. chained. same.
Qed.
Lemma through_revocation evs s sp p : ok evs s (revocation_endpoint_test sp p) ->
  exists evs' s', reach evs s (revocation_endpoint_test sp p)
    (seen_lookup sp (sp_revocation sp) ++ access_life sp (sp_valid_token sp)) evs' s' p.
Proof.
  unfold revocation_endpoint_test. intros H. go H through_lookup as R1. go H through_access as R2.
  eexists _, _. chained. same.
Qed.
Lemma through_introspection evs s sp p : ok evs s (introspection_endpoint_test sp p) ->
  exists evs' s', reach evs s (introspection_endpoint_test sp p) (seen_introspection sp) evs' s' p.
Proof.
  unfold introspection_endpoint_test, seen_introspection. intros H. go H through_error as R1.
  go H through_lookup as R2. send H. check H Hc. check H Ha.
  eassert (R3 : reach _ _ _ [(_, fun w => rec_code w = 200%Z /\ json_field_bool w "active" = true)] _ _ _).
  { eapply reach_here; cycle 3; [exact H|exact Hex| |reflexivity].
    split; [by apply Z.eqb_eq|done]. }
  eexists _, _. chained. same.
Qed.

Lemma through_password evs s sp p : ok evs s (password_grant_test sp p) ->
  exists a r a2 n evs' s', reach evs s (password_grant_test sp p) (seen_password sp a r a2 n) evs' s' p.
Proof.
  unfold password_grant_test, seen_password. intros H.
  go H through_error as R1. go H through_error as R2. go H through_error as R3.
  go H through_error as R4. go H through_error as R5.
  apply through_tokens in H as (a & r & ? & ? & Hr & R6). cbv beta in R6; pose proof (proj1 R6) as H.
  apply (through_pair _ _ _ _ _ _ Hr) in H as (a2 & n & ? & ? & R7).
  eexists a, r, a2, n, _, _. chained. same.
Qed.
Lemma through_client_credentials evs s sp p : ok evs s (client_credentials_grant_test sp p) ->
  exists a r a2 n evs' s', reach evs s (client_credentials_grant_test sp p)
    (seen_client_credentials sp a r a2 n) evs' s' p.
Proof.
  unfold client_credentials_grant_test, seen_client_credentials. intros H.
  go H through_refused as R1. go H through_refused as R2. go H through_error as R3.
  go H through_error as R4.
  apply through_tokens in H as (a & r & ? & ? & Hr & R6). cbv beta in R6; pose proof (proj1 R6) as H.
  apply (through_pair _ _ _ _ _ _ Hr) in H as (a2 & n & ? & ? & R7).
  eexists a, r, a2, n, _, _. chained. same.
Qed.

Lemma decides_approval sp pr hd kind scope : approval sp pr hd kind scope = decides sp pr hd kind scope.
Proof.
  unfold approval, decides, extend. by rewrite (left_id_L ∅ (∪)).
Qed.
Lemma decides_plain sp kind scope :
  post (sp_authorize sp) (approval_form sp kind scope) = decides sp None None kind scope.
Proof. unfold post, decides. cbn [default]. by rewrite (right_id_L ∅ (∪)). Qed.

Lemma through_refusals evs s sp kind p : ok evs s (approval_refusals sp kind p) ->
  exists evs' s', reach evs s (approval_refusals sp kind p)
    (seen_refusals sp kind (loc_param kind)) evs' s' p.
Proof.
  unfold approval_refusals, seen_refusals. rewrite !decides_approval, decides_plain. intros H.
  go H through_back_scope as R1.
  go H through_back_scope as R2.
  go H through_back_denied as R3.
  go H through_back_denied as R4.
  eexists _, _. chained. same.
Qed.

Lemma through_implicit evs s sp p : ok evs s (implicit_grant_test sp p) ->
  exists a evs' s', reach evs s (implicit_grant_test sp p) (seen_implicit sp a) evs' s' p.
Proof.
  unfold implicit_grant_test, seen_implicit. rewrite decides_approval. intros H.
  go H through_refusals as R1. send H. check H Hc.
  pose proof (some_ex _ _ _ _ _ H) as E1. apply pass_some in H as (x1 & X1 & F1 & H).
  pose proof (some_ex _ _ _ _ _ H) as E2. apply pass_some in H as (x2 & X2 & F2 & H).
  pose proof (some_ex _ _ _ _ _ H) as E3. apply pass_some in H as (x3 & X3 & F3 & H).
  pose proof (some_ex _ _ _ _ _ H) as E4. apply pass_some in H as (x4 & X4 & F4 & H).
  pose proof (some_ex _ _ _ _ _ H) as E5. apply pass_some in H as (x5 & X5 & F5 & H).
  pose proof (eq_trans E1 (eq_trans E2 (eq_trans E3 (eq_trans E4 E5)))) as He. clear E1 E2 E3 E4 E5.
  apply pass_match in H as (access & Ea & Na & H & E6). apply (eq_trans He) in E6. clear He. rename E6 into He.
  eassert (R2 : reach _ _ _ [(_, fun w => sends_back loc_fragment "access_token" access w /\
        loc_fragment w "token_type" = Some "bearer" /\
        loc_fragment w "scope" = Some (sp_valid_scope sp) /\
        loc_fragment w "expires_in" = Some (itoa (sp_expires_in sp)) /\
        loc_fragment w "refresh_token" = Some "")] _ _ _).
  { eapply reach_here; cycle 3; [exact H|exact Hex| |exact He].
    split; [split; [by apply Z.eqb_eq|]; split; [done|]; split; [exact Na|];
      rewrite X4; f_equal; by apply seqb_true|].
    split; [rewrite X1; f_equal; by apply seqb_true|].
    split; [rewrite X2; f_equal; by apply seqb_true|].
    split; [rewrite X3; f_equal; by apply seqb_true|].
    rewrite X5; f_equal; by apply seqb_true. }
  clear Hex He. go H through_access as R3.
  eexists access, _, _. chained. same.
Qed.

Lemma through_get_code evs s sp k : ok evs s (get_code sp k) ->
  exists code evs' s', reach evs s (get_code sp k)
    [(decides sp (sp_valid_params sp) (sp_valid_headers sp) "code" (sp_valid_scope sp),
       sends_back loc_query "code" code)] evs' s' (k code).
Proof.
  unfold get_code. rewrite decides_approval. intros H. send H. check H Hc.
  pose proof (some_ex _ _ _ _ _ H) as He. apply pass_some in H as (x1 & X1 & F1 & H).
  apply pass_match in H as (code & Ea & Na & H & E6). apply (eq_trans He) in E6. clear He. rename E6 into He.
  exists code. eexists _, _. eapply reach_here; cycle 3; [exact H|exact Hex| |exact He].
  split; [by apply Z.eqb_eq|]. split; [done|]. split; [exact Na|]. rewrite X1. f_equal. by apply seqb_true.
Qed.

Lemma through_code_grant evs s sp p : ok evs s (code_grant_test sp p) ->
  exists code a r a2 n code2 a3 r3 evs' s', reach evs s (code_grant_test sp p)
    (seen_code sp code a r a2 n code2 a3 r3) evs' s' p.
Proof.
  unfold code_grant_test, seen_code. cbv zeta. intros H.
  go H through_refusals as R1.
  apply through_get_code in H as (code & ? & ? & R2). cbv beta in R2; pose proof (proj1 R2) as H.
  go H through_error as R3. go H through_error as R4. go H through_error as R5.
  go H through_error as R6. go H through_error as R7. go H through_error as R8.
  apply through_tokens in H as (a & r & ? & ? & Hr & R9). cbv beta in R9; pose proof (proj1 R9) as H.
  apply (through_pair _ _ _ _ _ _ Hr) in H as (a2 & n & ? & ? & R10). cbv beta in R10; pose proof (proj1 R10) as H.
  apply through_get_code in H as (code2 & ? & ? & R11). cbv beta in R11; pose proof (proj1 R11) as H.
  apply through_tokens in H as (a3 & r3 & ? & ? & _ & R12). cbv beta in R12; pose proof (proj1 R12) as H.
  go H through_error as R13.
  destruct (sp_replay sp).
  - go H through_code as R14. go H through_error as R15.
    eexists code, a, r, a2, n, code2, a3, r3, _, _. chained. same.
  - eexists code, a, r, a2, n, code2, a3, r3, _, _. chained. same.
Qed.

Lemma through_refresh_grant evs s sp p : ok evs s (refresh_grant_test sp p) ->
  exists a n evs' s', reach evs s (refresh_grant_test sp p) (seen_refresh sp a n) evs' s' p.
Proof.
  unfold refresh_grant_test, seen_refresh. intros H.
  go H through_error as R1. go H through_error as R2. go H through_error as R3.
  go H through_error as R4. go H through_error as R5. go H through_error as R6.
  apply through_refresh in H as (a & n & ? & ? & R7).
  eexists a, n, _, _. chained. same.
Qed.
End Sound.
