(** The proofs of the theorems in Props/Suite.v. *)
From Verif.Model Require Import Client Suite.
From Verif.Spec Require Import ScopeSpec WireSpec RequestSpec ServerSpec SuiteSpec.
From Verif.Proof Require Import StrFacts SuiteFacts SuiteSteps SuiteReach SuiteTests SuiteSound.

(** ** C64 *)
Lemma c64_passes : forall resource required sp s t0 t1 evs,
  described resource required sp s t0 t1 -> Forall (in_time s t0 t1) evs -> fresh_randomness sp s evs ->
  no_failure (run_suite (mounted resource required) evs s (run_spec sp)) /\
  (most_requests sp <= length evs ->
     passed (run_suite (mounted resource required) evs s (run_spec sp))).
Proof.
  intros resource required sp s t0 t1 evs
    (uri & l & H1 & H2 & H3 & H4 & H5 & H6 & H7 & H8 & H9 & H10 & H11 & H12 & H13 & H14 & H15) Ht Hr.
  assert (Hs : safe (mounted resource required) (most_requests sp) evs s (run_spec sp)).
  { by apply (run_spec_ok resource required sp s t0 t1 evs uri l). }
  destruct Hs as [Hc He]. split.
  - split; [done|]. destruct He as [->|[-> _]]; discriminate.
  - intros Hn. split; [done|]. destruct He as [->|[_ He]]; [done|lia].
Qed.

(** ** C65 *)
Section Sound.
Context {S : Type} (h : handler S).
Notation ok evs s p := (passed (run_suite h evs s p)).

(** One conditional test: where the run goes on, and what the test has seen. *)
Lemma through_when evs0 s0 p0 evs s b (test : suite -> suite) p (Q : list (test_request * rw) -> Prop) :
  reach h evs0 s0 p0 [] evs s (when b test p) ->
  (b = true -> ok evs s (test p) -> exists want evs' s',
     reach h evs s (test p) want evs' s' p /\ forall L, seen want L -> Q L) ->
  exists evs' s', reach h evs0 s0 p0 [] evs' s' p /\ (b = true -> Q (exchanges h evs0 s0 p0)).
Proof.
  intros R Ht. unfold when in R. destruct b.
  - destruct (Ht eq_refl (proj1 R)) as (want & evs' & s' & R' & HQ). exists evs', s'.
    pose proof (reach_trans h _ _ _ _ _ _ _ _ _ _ _ R R') as R2. cbn [app] in R2.
    split; [exact (reach_less h _ _ _ _ _ _ _ R2)|]. intros _. apply HQ.
    rewrite <- (app_nil_r want). apply R2. constructor.
  - by exists evs, s.
Qed.

Lemma through_must evs0 s0 p0 w evs s b p :
  reach h evs0 s0 p0 w evs s (must b p) -> b = true /\ reach h evs0 s0 p0 w evs s p.
Proof.
  intros R. destruct (pass_must h _ _ _ _ (proj1 R)) as [-> _]. by split.
Qed.

Lemma not_none (m m' : option (gmap string string)) : given m || given m' = true -> m <> None \/ m' <> None.
Proof. destruct m, m'; cbn; intros H; try discriminate H; by (left; discriminate) || (right; discriminate). Qed.
End Sound.

Ltac musts R :=
  repeat (apply through_must in R; destruct R as [?Hm R]);
  repeat match goal with
         | Hm : not_empty _ = true |- _ => apply not_empty_ne in Hm
         | Hm : given _ || given _ = true |- _ => apply not_none in Hm
         end.
Ltac enter H R := pose proof (reach_refl _ _ _ _ H) as R; musts R; clear H; pose proof (proj1 R) as H.

Lemma c65_examined : forall S (h : handler S) evs s sp,
  passed (run_suite h evs s (run_spec sp)) ->
  complete_spec sp /\ examined sp (exchanges h evs s (run_spec sp)).
Proof.
  intros S h evs0 s0 sp H.
  pose proof (reach_refl h _ _ _ H) as R. unfold run_spec in R at 2. musts R.
  destruct (through_resource h _ _ _ _ (proj1 R)) as (evs1 & s1 & R1).
  pose proof (reach_trans h _ _ _ _ _ _ _ _ _ _ _ R R1) as R2. cbn [app] in R2.
  assert (Hres : seen (seen_resource sp) (exchanges h evs0 s0 (run_spec sp))).
  { rewrite <- (app_nil_r (seen_resource sp)). apply R2. constructor. }
  apply reach_less in R2. clear R R1. rename R2 into R.
  (* The tests, one after the other. *)
  eapply (through_when h _ _ _ _ _ _ _ _ (fun L => seen (seen_token_endpoint sp) L)) in R as (evs2 & s2 & R & Htok).
  2:{ intros _ Hok. destruct (through_token_endpoint h _ _ _ _ Hok) as (? & ? & R'). eexists _, _, _. by split. }
  eapply (through_when h _ _ _ _ _ _ _ _ (fun L => Forall (fun x => x <> "")
       [sp_invalid_redirect sp; sp_primary_redirect sp; sp_secondary_redirect sp] /\
       seen (seen_authorization_endpoint sp) L)) in R as (evs3 & s3 & R & Hend).
  2:{ intros _ Hok. enter Hok R'. destruct (through_authorization_endpoint h _ _ _ _ Hok) as (? & ? & R'').
      eexists _, _, _. split; [exact (reach_trans h _ _ _ _ _ _ _ _ _ _ _ R' R'')|]. intros L HL. split; [by repeat constructor|exact HL]. }
  eapply (through_when h _ _ _ _ _ _ _ _ (fun L => (sp_owner sp <> "" /\ sp_owner_password sp <> "") /\
      exists a r a2 n, seen (seen_password sp a r a2 n) L)) in R as (evs4 & s4 & R & Hpw).
  2:{ intros _ Hok. enter Hok R'. destruct (through_password h _ _ _ _ Hok) as (a & r & a2 & n & ? & ? & R'').
      eexists _, _, _. split; [exact (reach_trans h _ _ _ _ _ _ _ _ _ _ _ R' R'')|]. intros L HL. split; [done|]. by exists a, r, a2, n. }
  eapply (through_when h _ _ _ _ _ _ _ _ (fun L =>
      exists a r a2 n, seen (seen_client_credentials sp a r a2 n) L)) in R as (evs5 & s5 & R & Hcc).
  2:{ intros _ Hok. destruct (through_client_credentials h _ _ _ _ Hok) as (a & r & a2 & n & ? & ? & R'').
      eexists _, _, _. split; [exact R''|]. intros L HL. by exists a, r, a2, n. }
  eapply (through_when h _ _ _ _ _ _ _ _ (fun L => ((sp_invalid_params sp <> None \/ sp_invalid_headers sp <> None) /\
     (sp_valid_params sp <> None \/ sp_valid_headers sp <> None)) /\
      exists a, seen (seen_implicit sp a) L)) in R as (evs6 & s6 & R & Him).
  2:{ intros _ Hok. enter Hok R'. destruct (through_implicit h _ _ _ _ Hok) as (a & ? & ? & R'').
      eexists _, _, _. split; [exact (reach_trans h _ _ _ _ _ _ _ _ _ _ _ R' R'')|]. intros L HL. split; [done|]. by exists a. }
  eapply (through_when h _ _ _ _ _ _ _ _ (fun L => (((sp_invalid_params sp <> None \/ sp_invalid_headers sp <> None) /\
     (sp_valid_params sp <> None \/ sp_valid_headers sp <> None)) /\
      (sp_invalid_code sp <> "" /\ sp_unknown_code sp <> "" /\ sp_expired_code sp <> "")) /\
      exists code a r a2 n code2 a3 r3, seen (seen_code sp code a r a2 n code2 a3 r3) L)) in R as (evs7 & s7 & R & Hco).
  2:{ intros _ Hok. enter Hok R'. destruct (through_code_grant h _ _ _ _ Hok) as (code & a & r & a2 & n & code2 & a3 & r3 & ? & ? & R'').
      eexists _, _, _. split; [exact (reach_trans h _ _ _ _ _ _ _ _ _ _ _ R' R'')|]. intros L HL. split; [done|].
      by exists code, a, r, a2, n, code2, a3, r3. }
  eapply (through_when h _ _ _ _ _ _ _ _ (fun L => (sp_invalid_refresh sp <> "" /\ sp_unknown_refresh sp <> "" /\ sp_valid_refresh sp <> "" /\
     sp_expired_refresh sp <> "") /\ exists a n, seen (seen_refresh sp a n) L)) in R as (evs8 & s8 & R & Hre).
  2:{ intros _ Hok. enter Hok R'. destruct (through_refresh_grant h _ _ _ _ Hok) as (a & n & ? & ? & R'').
      eexists _, _, _. split; [exact (reach_trans h _ _ _ _ _ _ _ _ _ _ _ R' R'')|]. intros L HL. split; [done|]. by exists a, n. }
  eapply (through_when h _ _ _ _ _ _ _ _ (fun L => seen (seen_introspection sp) L)) in R as (evs9 & s9 & R & Hint).
  2:{ intros _ Hok. destruct (through_introspection h _ _ _ _ Hok) as (? & ? & R'). eexists _, _, _. by split. }
  eapply (through_when h _ _ _ _ _ _ _ _ (fun L => seen (seen_lookup sp (sp_revocation sp) ++ access_life sp (sp_valid_token sp)) L)) in R as (evs10 & s10 & _ & Hrev).
  2:{ intros _ Hok. destruct (through_revocation h _ _ _ _ Hok) as (? & ? & R'). eexists _, _, _. by split. }
  split.
  - unfold complete_spec. split; [by repeat constructor|]. split.
    { intros Hx. split; [apply Hend; apply orb_true_iff; exact Hx|].
      destruct Hx as [Hx|Hx]; [by apply Him|by apply Hco]. }
    split; [intros Hx; by apply Hpw|]. split; [intros Hx; by apply Hco|]. intros Hx; by apply Hre.
  - unfold examined. split; [exact Hres|].
    split.
    { intros Hx. apply Htok. rewrite !orb_true_iff. tauto. }
    split.
    { intros Hx. apply Hend. apply orb_true_iff. exact Hx. }
    split; [intros Hx; by apply Hpw|]. split; [exact Hcc|].
    split; [intros Hx; by apply Him|]. split; [intros Hx; by apply Hco|]. split; [intros Hx; by apply Hre|].
    split; [intros Hx; apply Hint; by apply filled|].
    intros Hx. apply Hrev. by apply filled.
Qed.

(** A handler whose answers depend on nothing but the request. *)
Lemma exchanges_of {S} (h : handler S) (f : request -> option rw) :
  (forall ev s r, snd (h ev s r) = f r) ->
  forall p evs s q w, In (q, w) (exchanges h evs s p) ->
  exists r, do_request q = Some r /\ f r = Some w.
Proof.
  intros Hf p. induction p as [|b p IH| |q' k IH]; intros evs s q w Hin; cbn [exchanges] in Hin.
  all: try contradiction.
  - by apply IH in Hin.
  - destruct (do_request q') as [r|] eqn:Hd; [|contradiction].
    destruct evs as [|ev evs]; [contradiction|].
    destruct (h ev s r) as [s' [w'|]] eqn:Hh; [|contradiction].
    destruct Hin as [Hin|Hin]; [|by apply IH in Hin].
    injection Hin as <- <-. exists r. split; [done|]. rewrite <- (Hf ev s r), Hh. reflexivity.
Qed.
Lemma seen_in (W : list (test_request * (rw -> Prop))) L : seen W L ->
  forall q P, In (q, P) W -> exists w, P w /\ In (q, w) L.
Proof.
  induction 1 as [|q0 P0 w W L HP Hs IH|W e L Hs IH]; intros q P Hin.
  - contradiction.
  - destruct Hin as [Hin|Hin].
    + injection Hin as -> ->. exists w. split; [done|by left].
    + destruct (IH _ _ Hin) as (w' & ? & ?). exists w'. split; [done|by right].
  - destruct (IH _ _ Hin) as (w' & ? & ?). exists w'. split; [done|by right].
Qed.
Lemma c65_forgetful : forall S (h : handler S) (f : request -> option rw),
  (forall ev s r, snd (h ev s r) = f r) ->
  forall evs s sp, sp_revocation sp <> "" ->
  ~ passed (run_suite h evs s (run_spec sp)).
Proof.
  intros S h f Hf evs s sp Hrev H. apply c65_examined in H as [_ (_ & _ & _ & _ & _ & _ & _ & _ & _ & H)].
  specialize (H Hrev). apply seen_drop_app in H. unfold access_life in H. apply seqb_false in Hrev. rewrite Hrev in H.
  destruct (seen_in _ _ H (with_token sp (sp_valid_token sp)) (answers 200)) as (w1 & Hw1 & I1); [by left|].
  destruct (seen_in _ _ H (with_token sp (sp_valid_token sp))
    (fun w => rec_code w = 401%Z /\ auth_param w "error" = Some "invalid_token")) as (w2 & [Hw2 _] & I2).
  { right. apply in_or_app. right. right. by left. }
  destruct (exchanges_of h f Hf _ _ _ _ _ I1) as (r & Hr & F1).
  destruct (exchanges_of h f Hf _ _ _ _ _ I2) as (r' & Hr' & F2).
  rewrite Hr in Hr'. injection Hr' as <-. rewrite F1 in F2. injection F2 as <-.
  unfold answers in Hw1. rewrite Hw1 in Hw2. discriminate Hw2.
Qed.
