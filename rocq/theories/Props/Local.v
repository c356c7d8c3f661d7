(** C82, C83, and more on C67 and C69: what an answer depends on. *)
From Verif.Model Require Import Server History Concurrent Owner.
From Verif.Spec Require Import TokenSpec ScopeSpec WireSpec RequestSpec ServerSpec HistorySpec Cases HistoryCases LocalSpec LocalCases ConcurrentSpec ConcurrentCases SecretSpec SecretCases.
From Verif.Proof Require Import LocalProofs LocalCase AnyOrder AnyOrderCase IsolationProofs IsolationCase SecretProofs SecretCase.

#[local] Open Scope string_scope.
#[local] Opaque handle parse_token.

(** C82. Two servers with the same configuration that agree on what a request
    mentions give the same answer to it, and agree afterwards on everything they
    agreed on before. *)
Theorem C82_serve : forall ev s1 s2 r w, sv_config s1 = sv_config s2 ->
  (forall x, mentions (server_secret s1) r x -> agree s1 s2 x) ->
  snd (serve_http ev s1 r w) = snd (serve_http ev s2 r w) /\
  forall x, agree s1 s2 x -> agree (fst (serve_http ev s1 r w)) (fst (serve_http ev s2 r w)) x.
Proof. exact c82_serve. Qed.
Print Assumptions C82_serve.

(** The same for Authorize, which mentions the bearer token. *)
Theorem C82_authorize : forall now s1 s2 r required w, sv_config s1 = sv_config s2 ->
  (forall str sg, bearer r str -> names (server_secret s1) str sg -> agree s1 s2 (Access sg)) ->
  authorize now s1 r required w = authorize now s2 r required w.
Proof. exact c82_authorize. Qed.
Print Assumptions C82_authorize.

(** The same for any number of calls: a set of names that contains all that is
    mentioned determines all answers. *)
Theorem C82_history : forall (K : record -> Prop) s1 s2 l1 l2 t1 t2,
  run s1 l1 t1 -> run s2 l2 t2 -> map st_op l1 = map st_op l2 ->
  sv_config s1 = sv_config s2 -> (forall x, K x -> agree s1 s2 x) ->
  (forall y x, In y l1 -> call_mentions (server_secret s1) (st_op y) x -> K x) ->
  map st_answer l1 = map st_answer l2 /\ forall x, K x -> agree t1 t2 x.
Proof. exact c82_history. Qed.
Print Assumptions C82_history.

(** The redemption of a code on two servers of which one has other clients,
    users and tokens. *)
Example C82_case : sv_config local_one = sv_config local_two /\
  (forall x, mentions (server_secret local_one) local_request x -> agree local_one local_two x) /\
  exists s1 s2 t, handle (case_env 1001 rand2) local_one local_request = Done s1 (OToken t) /\
    handle (case_env 1001 rand2) local_two local_request = Done s2 (OToken t) /\ ~ agree s1 s2 (Client "c2") /\
    ~ agree s1 s2 (User "u1") /\ ~ agree s1 s2 (Access "other").
Proof. exact (conj (proj1 local_case_agree) (conj (proj2 local_case_agree) local_case_answer)). Qed.

(** C83. Independent calls can be exchanged: in either order the answers are
    those they would get alone, and the server ends in the same state. *)
Theorem C83_commute : forall s o1 o2, independent s o1 o2 ->
  exists t, do_op (fst (do_op s o1)) o2 = (t, snd (do_op s o2)) /\ do_op (fst (do_op s o2)) o1 = (t, snd (do_op s o1)).
Proof. exact c83_commute. Qed.
Print Assumptions C83_commute.

(** Requests are independent if they present different codes and tokens, none
    of them is the replay of a code, and the new tokens are new. *)
Theorem C83_requests : forall s ev1 r1 ev2 r2, let secret := server_secret s in
  let a1 := snd (do_op s (Serve ev1 r1)) in let a2 := snd (do_op s (Serve ev2 r2)) in
  (forall x, mentions secret r1 x -> mentions secret r2 x -> (exists id, x = Client id) \/ (exists n, x = User n)) ->
  (forall q, ~ replays s r1 q) -> (forall q, ~ replays s r2 q) ->
  (forall x, gives secret a1 x -> vacant s x /\ ~ gives secret a2 x /\ ~ mentions secret r2 x) ->
  (forall x, gives secret a2 x -> vacant s x /\ ~ mentions secret r1 x) ->
  independent s (Serve ev1 r1) (Serve ev2 r2).
Proof. exact c83_requests. Qed.
Print Assumptions C83_requests.

(** One client refreshes its token while another gets a token for a user. *)
Example C83_case : independent (after step2) local_refresh local_password /\
  exists s1 s2 t1 t2, do_op (after step2) local_refresh = (s1, Answered (OToken t1)) /\
    do_op (after step2) local_password = (s2, Answered (OToken t2)) /\ s1 <> s2.
Proof. exact (conj local_independent local_both_answered). Qed.

(** The same for any number of calls: in every order each is answered as if it
    had been made alone, and the server ends in the same state. *)
Theorem C83_any_order : forall s l1 l2 t1 t2, History.run s l1 t1 -> History.run s l2 t2 -> Permutation (map st_op l1) (map st_op l2) ->
  (forall i j o o', i <> j -> map st_op l1 !! i = Some o -> map st_op l1 !! j = Some o' -> independent s o o') ->
  t1 = t2 /\ forall y, In y l1 \/ In y l2 -> st_answer y = snd (do_op s (st_op y)).
Proof. exact c83_any_order. Qed.
Print Assumptions C83_any_order.

(** The same for goroutines: every schedule leads to these answers and to this
    server. *)
Theorem C83_concurrent : forall m s calls w,
  (forall c, In c calls -> op_of c <> None) ->
  (forall i j c d o o', i <> j -> calls !! i = Some c -> calls !! j = Some d -> op_of c = Some o -> op_of d = Some o' -> independent s o o') ->
  holds m s -> reaches (start m calls) w -> all_ended w ->
  (forall i c, calls !! i = Some c -> ended w i (snd (perform s c))) /\
  holds (wo_mem w) (fst (one_by_one s calls)).
Proof. exact c83_concurrent. Qed.
Print Assumptions C83_concurrent.

(** The two requests of [C83_case] at the same time. *)
Example C83_concurrent_case : exists m w, holds m (after step2) /\ reaches (start m apart_calls) w /\ all_ended w /\
  wo_order w = [1; 0] /\ map op_of apart_calls = [Some local_refresh; Some local_password] /\
  (forall i c, apart_calls !! i = Some c -> exists v, ended w i v /\ status_of v = Some 200%Z).
Proof. exact apart_case. Qed.

(** C69. Calls that leave alone what the others mention can be left out: the
    other calls get the same answers without them. *)
Theorem C69_calls : forall (K : record -> Prop) mine cfg l s, history cfg l s ->
  (forall y x, In y l -> mine (st_op y) = true -> call_mentions (cfg_secret cfg) (st_op y) x -> K x) ->
  (forall y x, In y l -> mine (st_op y) = false -> K x -> agree (st_before y) (st_after y) x) ->
  undisturbed cfg mine l.
Proof. exact c69_calls. Qed.
Print Assumptions C69_calls.

(** So the requests of some clients are answered as if the other clients did
    not exist, provided that they do not present what was given to the others
    (the answer "wrong client" would tell), and that the others do not replay
    their codes (C44). *)
Theorem C69_groups : forall (A : string -> Prop) mine cfg l s, history cfg l s ->
  (forall y, In y l -> divides A mine (st_op y)) ->
  (forall y z x, In y l -> In z l -> mine (st_op y) = true -> mine (st_op z) = false ->
     call_mentions (cfg_secret cfg) (st_op y) x -> ~ gives (cfg_secret cfg) (st_answer z) x) ->
  (forall y z ev r q, In y l -> In z l -> mine (st_op y) = true -> mine (st_op z) = false ->
     gives (cfg_secret cfg) (st_answer y) (Code q) -> st_op z = Serve ev r -> ~ replays (st_before z) r q) ->
  undisturbed cfg mine l.
Proof. exact c69_groups. Qed.
Print Assumptions C69_groups.

(** c1 gets a code, redeems it and refreshes the token; in between c2 gets
    tokens for the same user. *)
Example C69_case_groups : history case_config local_history (st_after local_x4) /\
  (forall y, In y local_history -> divides (eq "c1") local_mine (st_op y)) /\
  (forall y z x, In y local_history -> In z local_history -> local_mine (st_op y) = true -> local_mine (st_op z) = false ->
     call_mentions (cfg_secret case_config) (st_op y) x -> ~ gives (cfg_secret case_config) (st_answer z) x) /\
  (forall z ev r, In z local_history -> local_mine (st_op z) = false -> st_op z = Serve ev r -> forall q, ~ replays (st_before z) r q) /\
  (exists t1 t2, st_answer local_x4 = Answered (OToken t1) /\ st_answer local_x3 = Answered (OToken t2)) /\
  local_mine (st_op local_x4) = true /\ local_mine (st_op local_x3) = false.
Proof.
  exact (conj local_run (conj local_divides (conj local_apart (conj local_no_replay (conj local_answers
    (conj (proj1 mine_facts) (proj1 (proj2 mine_facts)))))))).
Qed.

(** C67. Servers that differ only in the secrets of clients and users answer a
    request alike, unless a secret it presents is right on one and wrong on the
    other. *)
Theorem C67_serve : forall ev s1 s2 r w, equal_but_secrets s1 s2 -> fares_alike s1 s2 r ->
  snd (serve_http ev s1 r w) = snd (serve_http ev s2 r w) /\
  equal_but_secrets (fst (serve_http ev s1 r w)) (fst (serve_http ev s2 r w)).
Proof. exact c67_serve. Qed.
Print Assumptions C67_serve.

(** Authorize does not look at them at all. *)
Theorem C67_authorize : forall now s1 s2 r required w, equal_but_secrets s1 s2 ->
  authorize now s1 r required w = authorize now s2 r required w.
Proof. exact c67_authorize. Qed.
Print Assumptions C67_authorize.

(** So whatever happens, nothing more becomes known of a secret than which
    guesses were right. *)
Theorem C67_history : forall cfg l1 l2 s1 s2, history cfg l1 s1 -> history cfg l2 s2 -> fare_alike l1 l2 ->
  map st_answer l1 = map st_answer l2 /\ equal_but_secrets s1 s2.
Proof. exact c67_history. Qed.
Print Assumptions C67_history.

Example C67_case_history : history case_config (secret_run "p1") (st_after (secret_y4 "p1")) /\
  history case_config (secret_run "p2") (st_after (secret_y4 "p2")) /\ fare_alike (secret_run "p1") (secret_run "p2") /\
  exists e t, st_answer (secret_y3 "p1") = Answered (OError e) /\ e_name e = "access_denied" /\
    st_answer (secret_y4 "p1") = Answered (OToken t).
Proof. exact (conj (secret_history "p1") (conj (secret_history "p2") (conj secret_alike secret_answers))). Qed.
