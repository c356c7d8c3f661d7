(** The concrete case of C69. *)
From Verif.Model Require Import Server History.
From Verif.Spec Require Import TokenSpec ScopeSpec WireSpec RequestSpec ServerSpec HistorySpec Cases HistoryCases LocalSpec LocalCases.
From Verif.Proof Require Import StrFacts UrlFacts WireFacts ServerFacts Steps ServerProofs GrantProofs EffectProofs Effects CaseProofs HistoryFacts HistoryCase LocalProofs LocalCase IsolationProofs.

#[local] Open Scope string_scope.
#[local] Opaque handle parse_token.

Definition req0 : request := authorize_request "code" "xyz" "u1" "p1".
Lemma req0_facts : endpoint req0 "authorize" /\ form_param req0 "client_id" = "c1".
Proof. split; [apply (case_endpoint _ _ "authorize")|vm_compute; reflexivity]. Qed.
Lemma mine_facts : local_mine (st_op local_x4) = true /\ local_mine (st_op local_x3) = false /\
  local_mine (st_op case_x2) = true /\ local_mine (st_op case_x1) = true.
Proof. split; [|split; [|split]]; vm_compute; reflexivity. Qed.

Lemma local_steps y : In y local_history -> 
  (st_op y = Serve (case_env 1002 rand3) req1 /\ local_mine (st_op y) = true) \/
  (st_op y = Serve (case_env 1003 local_rand) req2 /\ local_mine (st_op y) = false /\ y = local_x3) \/
  (st_op y = Serve (case_env 1001 rand2) local_request /\ local_mine (st_op y) = true) \/
  (st_op y = Serve (case_env 1000 rand1) req0 /\ local_mine (st_op y) = true) \/
  (st_op y = SetUser "u1" case_user /\ local_mine (st_op y) = true) \/
  (st_op y = SetClient "c1" case_client /\ local_mine (st_op y) = true) \/
  (st_op y = SetClient "c2" case_public_client /\ local_mine (st_op y) = false /\ st_answer y = Silent).
Proof.
  destruct mine_facts as (M4 & M3 & M2 & M1). intros [<-|[<-|[<-|[<-|[<-|[<-|[<-|[]]]]]]]].
  - left. split; [reflexivity|exact M4].
  - right; left. split; [reflexivity|]. split; [exact M3|reflexivity].
  - right; right; left. split; [reflexivity|exact M2].
  - right; right; right; left. split; [reflexivity|exact M1].
  - right; right; right; right; left. split; reflexivity.
  - right; right; right; right; right; left. split; reflexivity.
  - right; right; right; right; right; right. split; [reflexivity|]. split; reflexivity.
Qed.
Lemma token_acts_for r id id' : endpoint r "token" -> fst (client_credentials r) = id -> acts_for r id' -> id' = id.
Proof.
  intros He <- [[Ha _]|[_ ->]]; [|done]. exfalso. apply (token_only r "authorize"); [done|by left|done].
Qed.
Lemma authorize_mentions secret r x : endpoint r "authorize" -> mentions secret r x -> (exists id, x = Client id) \/ exists n, x = User n.
Proof.
  intros He H. destruct H as [id Ha|Hu|sg Hp|sg Hp|sg Hi Hn|sg Hi Hn]; [left; by eexists|right; by eexists|..]; exfalso.
  - destruct Hp as (Hp & _). apply (token_only r "authorize" Hp); [by left|done].
  - destruct Hp as (Hp & _). apply (token_only r "authorize" Hp); [by left|done].
  - apply endpoint_authorize in He. destruct Hi as [Hi|Hi]; [apply endpoint_introspect in Hi|apply endpoint_revoke in Hi]; congruence.
  - apply endpoint_authorize in He. destruct Hi as [Hi|Hi]; [apply endpoint_introspect in Hi|apply endpoint_revoke in Hi]; congruence.
Qed.

Lemma local_divides y : In y local_history -> divides (eq "c1") local_mine (st_op y).
Proof.
  intros Hy. apply local_steps in Hy as [[E M]|[(E & M & _)|[[E M]|[[E M]|[[E M]|[[E M]|(E & M & _)]]]]]]; rewrite E in *; unfold divides; rewrite ?M.
  - intros id Hid. destruct req1_facts as (He & _ & Hc & _). rewrite (token_acts_for _ _ _ He Hc Hid). done.
  - intros id Hid. destruct req2_facts as (He & _ & Hc & _). rewrite (token_acts_for _ _ _ He Hc Hid). done.
  - intros id Hid. destruct local_case_facts as (He & _ & Hc & _). rewrite (token_acts_for _ _ _ He Hc Hid). done.
  - intros id Hid. destruct req0_facts as (He & Hc). destruct Hid as [[_ Hid]|[Hn _]]; [|by destruct Hn]. rewrite Hid, Hc. done.
  - done.
  - done.
  - done.
Qed.
Lemma local_apart y z x : In y local_history -> In z local_history -> local_mine (st_op y) = true -> local_mine (st_op z) = false ->
  call_mentions (cfg_secret case_config) (st_op y) x -> ~ gives (cfg_secret case_config) (st_answer z) x.
Proof.
  intros Hy Hz My Mz Hx Hg. destruct tok_distinct as (_ & _ & D3).
  assert (G : x = Access (sig_of (access_of tok2)) \/ x = Refresh (sig_of (refresh_of tok2))).
  { apply local_steps in Hz as [[_ M]|[(_ & _ & ->)|[[_ M]|[[_ M]|[[_ M]|[[_ M]|(_ & _ & E)]]]]]]; try congruence.
    - by apply tok2_gives.
    - rewrite E in Hg. by destruct Hg as (o & ? & _). }
  clear Hg. apply local_steps in Hy as [[E M]|[(E & M & _)|[[E M]|[[E M]|[[E M]|[[E M]|(E & M & _)]]]]]]; try congruence; rewrite E in Hx; cbn [call_mentions] in Hx.
  - apply req1_mentions in Hx. destruct G as [-> | ->], Hx as [Hx|Hx]; congruence.
  - apply local_case_mentions in Hx. destruct G as [-> | ->], Hx as [Hx|Hx]; congruence.
  - apply (authorize_mentions _ _ _ (proj1 req0_facts)) in Hx. destruct G as [-> | ->], Hx as [[? Hx]|[? Hx]]; congruence.
  - destruct G as [-> | ->]; congruence.
  - destruct G as [-> | ->]; congruence.
Qed.
Lemma local_no_replay z ev r : In z local_history -> local_mine (st_op z) = false -> st_op z = Serve ev r -> forall q, ~ replays (st_before z) r q.
Proof.
  intros Hz Mz Es. apply local_steps in Hz as [[_ M]|[(E & _ & _)|[[_ M]|[[_ M]|[[_ M]|[[_ M]|(E & _ & _)]]]]]]; try congruence.
  assert (r = req2) as -> by congruence. exact (no_replay req2 _ _ (proj1 (proj2 req2_facts)) ltac:(discriminate)).
Qed.
Lemma local_run : history case_config local_history (st_after local_x4).
Proof. unfold local_history. apply (run_step _ _ (st_after local_x3)). apply (run_step _ _ (after step2)). exact case_history2. Qed.
Lemma local_answers : exists t1 t2, st_answer local_x4 = Answered (OToken t1) /\ st_answer local_x3 = Answered (OToken t2).
Proof. eexists _, _. split; vm_compute; reflexivity. Qed.
