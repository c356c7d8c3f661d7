(** The concrete cases of C82 and C83. *)
From Verif.Model Require Import Server History.
From Verif.Spec Require Import TokenSpec ScopeSpec WireSpec RequestSpec ServerSpec HistorySpec Cases HistoryCases LocalSpec LocalCases.
From Verif.Proof Require Import StrFacts UrlFacts WireFacts ServerFacts Steps ServerProofs GrantProofs EffectProofs Effects CaseProofs HistoryCase LocalProofs.

#[local] Open Scope string_scope.
#[local] Opaque handle parse_token.

Lemma token_only r name : endpoint r "token" -> In name ["authorize"; "introspect"; "revoke"] -> ~ endpoint r name.
Proof.
  intros He Hn. apply endpoint_token in He. cbn in Hn.
  destruct Hn as [<-|[<-|[<-|[]]]]; rewrite ?endpoint_authorize, ?endpoint_introspect, ?endpoint_revoke, He; done.
Qed.

Lemma token_mentions secret r x : endpoint r "token" -> mentions secret r x ->
  x = Client (fst (client_credentials r)) \/
  (body_param r "grant_type" = "password" /\ x = User (body_param r "username")) \/
  (exists sg, x = Code sg /\ presents_code secret r sg) \/ (exists sg, x = Refresh sg /\ presents_refresh secret r sg).
Proof.
  intros He H. destruct H as [id Ha|Hu|sg Hp|sg Hp|sg Hi Hn|sg Hi Hn].
  - left. f_equal. destruct Ha as [[Ha _]|[_ Ha]]; [|exact Ha]. exfalso. apply (token_only r "authorize"); [done|by left|done].
  - right. left. destruct Hu as [[Ha _]|[_ Hu]]; [|done]. exfalso. apply (token_only r "authorize"); [done|by left|done].
  - right. right. left. by exists sg.
  - right. right. right. by exists sg.
  - exfalso. destruct Hi as [Hi|Hi]; eapply token_only; [exact He| |exact Hi|exact He| |exact Hi]; cbn; tauto.
  - exfalso. destruct Hi as [Hi|Hi]; eapply token_only; [exact He| |exact Hi|exact He| |exact Hi]; cbn; tauto.
Qed.

Lemma local_case_facts : endpoint local_request "token" /\ body_param local_request "grant_type" = "authorization_code" /\
  fst (client_credentials local_request) = "c1" /\ body_param local_request "code" = code_of step1.
Proof. split; [apply (case_endpoint _ _ "token")|]. split; [|split]; vm_compute; reflexivity. Qed.
Lemma local_case_mentions x : mentions (cfg_secret case_config) local_request x ->
  x = Client "c1" \/ x = Code (sig_of (code_of step1)).
Proof.
  destruct local_case_facts as (He & Hg & Hid & Hcode). generalize dependent local_request. intros r He Hg Hid Hcode H.
  apply (token_mentions _ r x He) in H as [->|[[Hx _]|[(sg & -> & _ & _ & Hn)|(sg & _ & _ & Hx & _)]]]; [|congruence| |congruence].
  - left. by rewrite Hid.
  - right. rewrite Hcode in Hn. by apply case_names_fun in Hn as ->.
Qed.
Lemma local_case_agree : sv_config local_one = sv_config local_two /\
  forall x, mentions (server_secret local_one) local_request x -> agree local_one local_two x.
Proof.
  split; [vm_compute; reflexivity|]. intros x Hx.
  assert (E : server_secret local_one = cfg_secret case_config) by (vm_compute; reflexivity). rewrite E in Hx.
  apply local_case_mentions in Hx as [-> | ->]; [vm_compute; reflexivity|reflexivity].
Qed.
Lemma local_case_answer : exists s1 s2 t, handle (case_env 1001 rand2) local_one local_request = Done s1 (OToken t) /\
  handle (case_env 1001 rand2) local_two local_request = Done s2 (OToken t) /\ ~ agree s1 s2 (Client "c2") /\
  ~ agree s1 s2 (User "u1") /\ ~ agree s1 s2 (Access "other").
Proof.
  eexists _, _, _. split; [vm_compute; reflexivity|]. split; [vm_compute; reflexivity|].
  split; [|split]; vm_compute; discriminate.
Qed.

(** C83: both requests are answered with tokens. *)
Definition req1 : request := refresh_request case_auth (refresh_of step2).
Definition req2 : request := password_request case_auth2 "read".
Lemma req1_facts : endpoint req1 "token" /\ body_param req1 "grant_type" = "refresh_token" /\
  fst (client_credentials req1) = "c1" /\ body_param req1 "refresh_token" = refresh_of step2.
Proof. split; [apply (case_endpoint _ _ "token")|]. split; [|split]; vm_compute; reflexivity. Qed.
Lemma req2_facts : endpoint req2 "token" /\ body_param req2 "grant_type" = "password" /\
  fst (client_credentials req2) = "c2" /\ body_param req2 "username" = "u1".
Proof. split; [apply (case_endpoint _ _ "token")|]. split; [|split]; vm_compute; reflexivity. Qed.
Lemma req1_mentions x : mentions (cfg_secret case_config) req1 x -> x = Client "c1" \/ x = Refresh (sig_of (refresh_of step2)).
Proof.
  destruct req1_facts as (He & Hg & Hid & Ht). generalize dependent req1. intros r He Hg Hid Ht H.
  apply (token_mentions _ r x He) in H as [->|[[Hx _]|[(sg & -> & _ & Hx & _)|(sg & -> & _ & _ & Hn)]]]; [|congruence|congruence|].
  - left. by rewrite Hid.
  - right. rewrite Ht in Hn. by apply case_names_fun in Hn as ->.
Qed.
Lemma req2_mentions x : mentions (cfg_secret case_config) req2 x -> x = Client "c2" \/ x = User "u1".
Proof.
  destruct req2_facts as (He & Hg & Hid & Ht). generalize dependent req2. intros r He Hg Hid Ht H.
  apply (token_mentions _ r x He) in H as [->|[[Hx ->]|[(sg & -> & _ & Hx & _)|(sg & -> & _ & Hx & _)]]]; [| |congruence|congruence].
  - left. by rewrite Hid.
  - right. by rewrite Ht.
Qed.
Lemma gives_tokens t x : gives (cfg_secret case_config) (Answered (OToken t)) x ->
  forall A B, tr_access_token t = A -> tr_refresh_token t = B ->
  x = Access (sig_of A) \/ x = Refresh (sig_of B).
Proof.
  intros (o & [= <-] & H) A B <- <-. destruct x as [|?|sg|sg|sg]; try done.
  - destruct H as (t' & [= <-] & Hn). apply case_names_fun in Hn as ->. by left.
  - destruct H as (t' & [= <-] & Hn). apply case_names_fun in Hn as ->. by right.
  - by destruct H as (c & ? & _).
Qed.
Definition tok1 : result := handle (case_env 1002 rand3) (after step2) req1.
Definition tok2 : result := handle (case_env 1003 local_rand) (after step2) req2.
Lemma tok1_gives x : gives (cfg_secret case_config) (snd (do_op (after step2) local_refresh)) x ->
  x = Access (sig_of (access_of tok1)) \/ x = Refresh (sig_of (refresh_of tok1)).
Proof.
  assert (E : exists s' t, tok1 = Done s' (OToken t)) by (eexists _, _; vm_compute; reflexivity).
  destruct E as (s' & t & E). unfold local_refresh, do_op. fold req1. fold tok1. rewrite E. cbn [snd access_of refresh_of]. intros H.
  by apply (gives_tokens t x H).
Qed.
Lemma tok2_gives x : gives (cfg_secret case_config) (snd (do_op (after step2) local_password)) x ->
  x = Access (sig_of (access_of tok2)) \/ x = Refresh (sig_of (refresh_of tok2)).
Proof.
  assert (E : exists s' t, tok2 = Done s' (OToken t)) by (eexists _, _; vm_compute; reflexivity).
  destruct E as (s' & t & E). unfold local_password, do_op. fold req2. fold tok2. rewrite E. cbn [snd access_of refresh_of]. intros H.
  by apply (gives_tokens t x H).
Qed.
Lemma no_replay r s g : body_param r "grant_type" = g -> g <> "authorization_code" -> forall q, ~ replays s r q.
Proof. intros Hg Hn q (_ & Hx & _). congruence. Qed.
Lemma tok_distinct : sig_of (access_of tok1) <> sig_of (access_of tok2) /\ sig_of (refresh_of tok1) <> sig_of (refresh_of tok2) /\
  sig_of (refresh_of tok2) <> sig_of (refresh_of step2).
Proof. split; [|split]; vm_compute; discriminate. Qed.
Lemma tok_vacant : vacant (after step2) (Access (sig_of (access_of tok1))) /\ vacant (after step2) (Refresh (sig_of (refresh_of tok1))) /\
  vacant (after step2) (Access (sig_of (access_of tok2))) /\ vacant (after step2) (Refresh (sig_of (refresh_of tok2))).
Proof. split; [|split; [|split]]; vm_compute; reflexivity. Qed.
Lemma local_independent : independent (after step2) local_refresh local_password.
Proof.
  assert (Es : server_secret (after step2) = cfg_secret case_config) by (vm_compute; reflexivity).
  destruct tok_distinct as (D1 & D2 & D3), tok_vacant as (V1 & V2 & V3 & V4).
  apply c83_requests; rewrite ?Es.
  - intros x H1 H2. apply req1_mentions in H1. apply req2_mentions in H2. left. destruct H1 as [-> | ->]; [by eexists|]. by destruct H2.
  - exact (no_replay req1 _ _ (proj1 (proj2 req1_facts)) ltac:(discriminate)).
  - exact (no_replay req2 _ _ (proj1 (proj2 req2_facts)) ltac:(discriminate)).
  - intros x H. apply tok1_gives in H. split; [destruct H as [-> | ->]; [exact V1|exact V2]|]. split.
    + intros H2. apply tok2_gives in H2. destruct H as [-> | ->], H2 as [E|E]; congruence.
    + intros H2. apply req2_mentions in H2. destruct H as [-> | ->], H2 as [E|E]; congruence.
  - intros x H. apply tok2_gives in H. split; [destruct H as [-> | ->]; [exact V3|exact V4]|].
    intros H2. apply req1_mentions in H2. destruct H as [-> | ->], H2 as [E|E]; congruence.
Qed.
Lemma local_both_answered : exists s1 s2 t1 t2, do_op (after step2) local_refresh = (s1, Answered (OToken t1)) /\
  do_op (after step2) local_password = (s2, Answered (OToken t2)) /\ s1 <> s2.
Proof. eexists _, _, _, _. split; [vm_compute; reflexivity|]. split; [vm_compute; reflexivity|].
  intros E. apply (f_equal (fun s => size (sv_refresh s))) in E. vm_compute in E. discriminate E. Qed.
