(** C53, and the parts of C28 and C43 that are about concurrent calls. *)
From Verif.Model Require Import Server History Concurrent Owner.
From Verif.Spec Require Import ServerSpec ConcurrentSpec Cases OwnerCases ConcurrentCases.
From Verif.Proof Require Import ConcurrentWp ConcurrentHandlers ConcurrentProofs ConcurrentMore ConcurrentCase ConcurrentWait.

#[local] Opaque handle parse_token one_by_one pick.

(** C53. Whatever the schedule, when all calls are done the memory holds the
    server, and the calls have given the replies, of the same calls made one
    after the other in the order in which they acquired the mutex. *)
Theorem C53_linearizable : forall m s calls w,
  holds m s -> reaches (start m calls) w -> all_ended w ->
  Permutation (wo_order w) (seq 0 (length calls)) /\
  holds (wo_mem w) (fst (one_by_one s (pick calls (wo_order w)))) /\
  (forall n i, wo_order w !! n = Some i ->
     exists v, snd (one_by_one s (pick calls (wo_order w))) !! n = Some v /\ ended w i v).
Proof. exact c53_linearizable. Qed.
Print Assumptions C53_linearizable.

(** The same at every moment before that: of the calls that are done, and of
    the memory whenever the mutex is free. *)
Theorem C53_replies_so_far : forall m s calls w n i v,
  holds m s -> reaches (start m calls) w ->
  wo_order w !! n = Some i -> ended w i v ->
  snd (one_by_one s (pick calls (wo_order w))) !! n = Some v.
Proof. exact c53_replies. Qed.
Print Assumptions C53_replies_so_far.

Theorem C53_memory_so_far : forall m s calls w,
  holds m s -> reaches (start m calls) w -> wo_locked w = false ->
  holds (wo_mem w) (fst (one_by_one s (pick calls (wo_order w)))).
Proof. exact c53_memory. Qed.
Print Assumptions C53_memory_so_far.

(** A memory holds at most one server, and every server is held by some memory. *)
Theorem C53_one_server : forall m s s', holds m s -> holds m s' -> s = s'.
Proof. exact holds_unique. Qed.
Print Assumptions C53_one_server.

Theorem C53_some_memory : forall s, exists m, holds m s.
Proof. exact holds_exists. Qed.
Print Assumptions C53_some_memory.

(** The calls in that order continue the history of the server, so all
    theorems about histories apply to concurrent calls, unless the owner
    assigns to Config or a credential map. *)
Theorem C53_history : forall cfg m s0 l0 calls w,
  (forall c, In c calls -> op_of c <> None) ->
  history cfg l0 s0 -> holds m s0 -> reaches (start m calls) w -> all_ended w ->
  exists s l, history cfg (l ++ l0) s /\ holds (wo_mem w) s /\
    map (fun x => Some (st_op x)) (rev l) = map op_of (pick calls (wo_order w)) /\
    (forall n i c, wo_order w !! n = Some i -> calls !! i = Some c ->
       exists x, rev l !! n = Some x /\ ended w i (written c (st_answer x))).
Proof. exact c53_history. Qed.
Print Assumptions C53_history.

(** This with all the owner can do meanwhile, holding the mutex: the calls in
    that order continue the life of the server (C73), whatever its fields are
    set to. *)
Theorem C53_owned : forall m s0 l0 calls w,
  owned l0 s0 -> holds m s0 -> reaches (start m calls) w -> all_ended w ->
  exists s l, owned (l ++ l0) s /\ holds (wo_mem w) s /\ length l = length calls /\
    (forall n i c, wo_order w !! n = Some i -> calls !! i = Some c ->
       exists e, rev l !! n = Some e /\ is_event c e /\ ended w i (replied c e)).
Proof. exact c53_owned. Qed.
Print Assumptions C53_owned.

Example C53_owned_case : exists m, owned owner_events owner_server /\ holds m owner_server /\
  (exists w v, reaches (start m owner_race) w /\ all_ended w /\ ended w 0 v /\ allowed v = Some true) /\
  (exists w v, reaches (start m owner_race) w /\ all_ended w /\ ended w 0 v /\ allowed v = Some false).
Proof. exact owner_race_case. Qed.

(** The order respects real time. *)
Theorem C53_real_time : forall m s calls w w' i j v,
  holds m s -> reaches (start m calls) w -> reaches w w' ->
  ended w i v -> waiting calls w j -> In j (wo_order w') -> before (wo_order w') i j.
Proof. exact c53_real_time. Qed.
Print Assumptions C53_real_time.

(** No order is excluded. *)
Theorem C53_every_order : forall m s calls order,
  holds m s -> Permutation order (seq 0 (length calls)) ->
  exists w, reaches (start m calls) w /\ all_ended w /\ wo_order w = order.
Proof. exact c53_every_order. Qed.
Print Assumptions C53_every_order.

(** No deadlock: some goroutine can always go on until all are done, with the
    mutex free. *)
Theorem C53_no_deadlock : forall m s calls w,
  holds m s -> reaches (start m calls) w ->
  all_ended w /\ wo_locked w = false \/ exists i w', wstep i w w'.
Proof. exact c53_no_deadlock. Qed.
Print Assumptions C53_no_deadlock.

(** No schedule goes on forever. *)
Theorem C53_terminates : forall w : world, Acc (fun w2 w1 => exists i, wstep i w1 w2) w.
Proof. exact c53_terminates. Qed.
Print Assumptions C53_terminates.

Theorem C53_completes : forall m s calls w,
  holds m s -> reaches (start m calls) w -> exists w', reaches w w' /\ all_ended w'.
Proof. exact c53_completes. Qed.
Print Assumptions C53_completes.

(** The mutex is held only by a call that is not done and can go on. *)
Theorem C53_released : forall m s calls w,
  holds m s -> reaches (start m calls) w -> wo_locked w = true ->
  exists i w', last (wo_order w) = Some i /\ (forall v, ~ ended w i v) /\ wstep i w w'.
Proof. exact c53_released. Qed.
Print Assumptions C53_released.

(** Shared memory is accessed only by the holder of the mutex. *)
Theorem C53_exclusive : forall m s calls w i,
  holds m s -> reaches (start m calls) w -> about_to_access w i ->
  wo_locked w = true /\ last (wo_order w) = Some i.
Proof. exact c53_exclusive. Qed.
Print Assumptions C53_exclusive.

Example C53_case : exists m w v0 v1, holds m (after step1) /\ reaches (start m race) w /\
  all_ended w /\ wo_order w = [1; 2; 0] /\
  ended w 1 v1 /\ status_of v1 = Some 200%Z /\ ended w 2 None /\ ended w 0 v0 /\ status_of v0 = Some 400%Z.
Proof. exact race_case. Qed.

(** C28: these calls never write to shared memory, at no step. *)
Theorem C28_concurrent : forall m calls w i w' c,
  reaches (start m calls) w -> wstep i w w' -> calls !! i = Some c ->
  (exists now r required x, c = CAuthorize now r required x) \/
  (exists ev r x, c = CServe ev r x /\
     (endpoint r "introspect" \/ (endpoint r "authorize" /\ rq_method r = "GET") \/ other_path r)) ->
  wo_mem w' = wo_mem w.
Proof. exact c28_concurrent. Qed.
Print Assumptions C28_concurrent.

Example C28_concurrent_case : exists m w, holds m case_server /\
  wstep 0 (start m [CAuthorize 0 (bearer_request "x") None new_rw]) w.
Proof. destruct (holds_exists case_server) as [m Hm]. exists m. eexists. split; [exact Hm|]. apply ws_lock. reflexivity. Qed.

(** C43: a call that panicked does not hold the mutex and has not changed the
    server. ([C53_case] contains one.) *)
Theorem C43_concurrent : forall m s calls w i ev r,
  holds m s -> reaches (start m calls) w ->
  calls !! i = Some (CServe ev r new_rw) -> ended w i None ->
  (wo_locked w = true -> last (wo_order w) <> Some i) /\
  exists n, wo_order w !! n = Some i /\
    fst (one_by_one s (pick calls (take (S n) (wo_order w)))) = fst (one_by_one s (pick calls (take n (wo_order w)))).
Proof. exact c43_concurrent. Qed.
Print Assumptions C43_concurrent.

(** C72: a client that is slow to send its request or to take its response does
    not hold up other calls. This is false: the mutex is held meanwhile. Here
    a call has not begun although every step left to the others is one of the
    slow client. *)
Theorem C72_slow_client_refuted : exists m s calls w i x j,
  holds m s /\ reaches (start m calls) w /\ awaits w i x /\ waiting calls w j /\
  forall k w', wstep k w w' -> k = i.
Proof. exact c72_refuted. Qed.
Print Assumptions C72_slow_client_refuted.

(** It is false whenever a call waits for its client, not only here: nothing
    else can happen before the client acts. *)
Theorem C72_standstill : forall m s calls w i x j w',
  holds m s -> reaches (start m calls) w -> awaits w i x -> wstep j w w' -> j = i.
Proof. exact c72_standstill. Qed.
Print Assumptions C72_standstill.

(** What remains true: at most one call waits for its client, *)
Theorem C72_one_waits : forall m s calls w i x j y,
  holds m s -> reaches (start m calls) w -> awaits w i x -> awaits w j y -> i = j /\ x = y.
Proof. exact c72_one_waits. Qed.
Print Assumptions C72_one_waits.

(** only a call with a form waits for the request, *)
Theorem C72_only_forms : forall m s calls w i,
  holds m s -> reaches (start m calls) w -> awaits w i ForBody ->
  exists ev r x, calls !! i = Some (CServe ev r x) /\ carries_form r.
Proof. exact c72_form. Qed.
Print Assumptions C72_only_forms.

(** and without any client the server gets as far as the next wait or to the
    end of all calls. *)
Theorem C72_slow_client_partial : forall m s calls w,
  holds m s -> reaches (start m calls) w ->
  exists w', own_steps w w' /\ (all_ended w' \/ exists i x, awaits w' i x).
Proof. exact c72_alone. Qed.
Print Assumptions C72_slow_client_partial.

(** While a call waits nothing is half done: the memory holds the server as it
    was before the call, or after it. *)
Theorem C72_nothing_begun : forall m s calls w i,
  holds m s -> reaches (start m calls) w -> awaits w i ForBody ->
  exists earlier, wo_order w = earlier ++ [i] /\
    holds (wo_mem w) (fst (one_by_one s (pick calls earlier))).
Proof. exact c72_before. Qed.
Print Assumptions C72_nothing_begun.

Theorem C72_all_done : forall m s calls w i,
  holds m s -> reaches (start m calls) w -> awaits w i ForAnswer ->
  holds (wo_mem w) (fst (one_by_one s (pick calls (wo_order w)))).
Proof. exact c72_after. Qed.
Print Assumptions C72_all_done.

Example C72_case : exists m w, holds m case_server /\ reaches (start m stalled) w /\
  awaits w 0 ForBody /\ waiting stalled w 1 /\ forall j w', wstep j w w' -> j = 0.
Proof. exact c72_case. Qed.
