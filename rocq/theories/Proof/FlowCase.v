(** Facts about the concrete sequences of calls. *)
From Verif.Model Require Import Server History.
From Verif.Spec Require Import TokenSpec ScopeSpec WireSpec RequestSpec ServerSpec HistorySpec FlowSpec Cases HistoryCases FlowCases.
From Verif.Proof Require Import StrFacts WireFacts Steps ServerFacts ServerProofs GrantProofs EffectProofs CaseProofs Effects HistoryFacts HistoryProofs HistoryCase FlowProofs.

#[local] Opaque handle parse_token.

Lemma guess_credentials : client_credentials (client_request (basic_auth_header "c1" "guess")) = ("c1", "guess").
Proof. vm_compute. reflexivity. Qed.
Lemma public_credentials : client_credentials (password_request case_auth2 "read") = ("c2", "").
Proof. vm_compute. reflexivity. Qed.
Lemma secret_twins : Forall2 (twin (secret_calls case_client)) (secret_calls case_client) (secret_calls other_client).
Proof.
  unfold secret_calls at 2 3. constructor; [apply twin_same|]. constructor; [|repeat (constructor; [apply twin_same|]); constructor].
  apply twin_client; [done|done|]. intros p (ev & r & Hin & Hc).
  destruct Hin as [H|[H|[H|[H|[H|[]]]]]]; try discriminate H; injection H as _ <-.
  - rewrite guess_credentials in Hc. injection Hc as <-. done.
  - rewrite public_credentials in Hc. discriminate Hc.
Qed.

Definition owned (id : string) (m : gmap string credential) (sg : string) : bool :=
  match m !! sg with Some c => seqb (cd_client_id c) id | None => true end.
Lemma owned_spec id m sg c : owned id m sg = true -> m !! sg = Some c -> cd_client_id c = id.
Proof. unfold owned. intros H E. rewrite E in H. by apply seqb_true. Qed.
Lemma not_foreign id s r : cfg_secret (sv_config s) = cfg_secret case_config ->
  forallb (fun p => let str := body_param r p in seqb str "" ||
    (owned id (sv_access s) (sig_of str) && owned id (sv_refresh s) (sig_of str) && owned id (sv_codes s) (sig_of str)))
    ["code"; "refresh_token"; "token"] = true -> ~ presents_foreign id s r.
Proof.
  intros Hs H (p & sg & c & Hp & Hn & Hc & Hne). rewrite forallb_forall in H. specialize (H p Hp). cbv zeta in H.
  unfold server_secret in Hn. rewrite Hs in Hn. apply orb_true_iff in H as [H|H].
  { apply seqb_true in H. rewrite H in Hn. by apply names_empty in Hn. }
  apply case_names_fun in Hn. subst sg. apply andb_true_iff in H as [H H3]. apply andb_true_iff in H as [H1 H2].
  destruct Hc as [Hc|[Hc|Hc]]; [apply (owned_spec _ _ _ _ H1) in Hc|apply (owned_spec _ _ _ _ H2) in Hc|apply (owned_spec _ _ _ _ H3) in Hc]; congruence.
Qed.

Lemma token_acts auth l id secret : client_credentials (post_to "/oauth2/token" auth l) = (id, secret) ->
  acts_for (post_to "/oauth2/token" auth l) id.
Proof.
  intros H. right. split; [|by rewrite H]. rewrite endpoint_authorize. vm_compute. discriminate.
Qed.
Lemma redeem_credentials : client_credentials (redeem_request case_auth (code_of step1)) = ("c1", "s1").
Proof. vm_compute. reflexivity. Qed.
Lemma refresh_credentials : client_credentials (refresh_request case_auth (refresh_of step2)) = ("c1", "s1").
Proof. vm_compute. reflexivity. Qed.
Lemma fact_between : access_of between <> "".
Proof. vm_compute. discriminate. Qed.
Lemma between_new : sv_access (after step2) !! sig_of (access_of between) = None /\ sv_refresh (after step2) !! sig_of (refresh_of between) = None.
Proof. vm_compute. split; reflexivity. Qed.
Lemma between_grant : body_param (password_request case_auth2 "read") "grant_type" = "password".
Proof. vm_compute. reflexivity. Qed.
Lemma secret_after2 : cfg_secret (sv_config (after step2)) = cfg_secret case_config.
Proof. vm_compute. reflexivity. Qed.
Lemma config_between : cfg_secret (sv_config (after between)) = cfg_secret case_config.
Proof. vm_compute. reflexivity. Qed.
Lemma own1 : own_call "c1" case_server first_op.
Proof.
  split.
  - left. split; [apply (case_endpoint _ _ "authorize")|]. vm_compute. reflexivity.
  - apply not_foreign; vm_compute; reflexivity.
Qed.
Lemma own2 : own_call "c1" (after step1) second_op.
Proof. split; [apply (token_acts _ _ _ _ redeem_credentials)|]. apply not_foreign; vm_compute; reflexivity. Qed.
Lemma own4 : own_call "c1" (after between) last_op.
Proof. split; [apply (token_acts _ _ _ _ refresh_credentials)|]. apply not_foreign; vm_compute; reflexivity. Qed.
Lemma foreign3 : foreign_call "c1" (after step2) between_op.
Proof.
  split; [|split].
  - intros Ha. pose proof (acts_for_fun _ _ _ Ha (token_acts _ _ _ _ public_credentials)) as H. discriminate H.
  - intros k c _ _ (_ & H & _). rewrite between_grant in H. discriminate H.
  - intros s' a k c Ha Hc. change (handle _ _ _) with between in Ha.
    destruct (access_answer _ fact_between) as (s1 & t & Ht & H1 & H2). rewrite Ha in Ht. injection Ht as -> ->.
    destruct between_new as [N1 N2]. unfold server_secret. rewrite secret_after2. split_and!.
    + intros (t' & [= <-] & Hn). rewrite <- H1 in Hn. apply case_names_fun in Hn. rewrite Hn, N1. discriminate.
    + intros (t' & [= <-] & Hn). rewrite <- H2 in Hn. apply case_names_fun in Hn. rewrite Hn, N2. discriminate.
    + intros (t' & [=] & _).
Qed.
Lemma case_interleaved : exists own,
  interleaved "c1" (new_server case_config) (setup_ops ++ [first_op; second_op; between_op; last_op]) own /\
  map fst own = setup_ops ++ [first_op; second_op; last_op].
Proof.
  eexists. split.
  - apply il_own; [done|]. apply il_own; [done|]. apply il_own; [done|].
    change (fst (do_op _ (SetUser "u1" case_user))) with case_server.
    apply il_own; [exact own1|]. unfold first_op at 1. rewrite step_serve. change (res_server _) with (after step1).
    apply il_own; [exact own2|]. unfold second_op at 1. rewrite step_serve. change (res_server _) with (after step2).
    apply il_foreign; [exact foreign3|]. unfold between_op at 1. rewrite step_serve. change (res_server _) with (after between).
    apply il_own; [exact own4|]. apply il_nil.
  - reflexivity.
Qed.

Lemma case_token_count : counts answered_with_token history2 1.
Proof.
  apply counts_yes; [destruct served2 as (s & t & _ & _ & _ & Hs); by eexists _, _, _|].
  apply counts_no; [intros (ev & r & t & Hs); exact (code_answer_1 _ _ _ Hs)|].
  apply counts_setup. intros x (ev & r & t & H). by eexists _, _, _.
Qed.
Lemma case_code_count : counts answered_with_code history2 1.
Proof.
  apply counts_no.
  { intros (ev & r & c & Hs). destruct served2 as (s & t & _ & _ & _ & Hs'). destruct (served_fun _ _ _ _ _ _ _ Hs Hs') as (_ & _ & [=]). }
  apply counts_yes; [destruct served1 as (s & c & _ & _ & Hs); by eexists _, _, _|].
  apply counts_setup. intros x (ev & r & t & H). by eexists _, _, _.
Qed.
