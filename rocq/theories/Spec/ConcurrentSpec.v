(** Vocabulary for the properties of concurrent calls: what the same calls do
    when they are made one after the other. *)
From Verif.Model Require Import Server History Concurrent Owner.
From Verif.Spec Require Import ServerSpec.

(** The credential maps of a server. *)
Definition sv_table (s : server) (t : table) : gmap string credential :=
  match t with TAccess => sv_access s | TRefresh => sv_refresh s | TCodes => sv_codes s end.

(** The memory [m] holds the server [s]: following the pointers of the maps
    gives the credentials of [s], and no two entries share a pointer. *)
Definition holds (m : mem) (s : server) : Prop :=
  me_config m = sv_config s /\ me_clients m = sv_clients s /\ me_users m = sv_users s /\
  (forall t k, match me_table m t !! k with
               | Some l => exists c, me_heap m !! l = Some c /\ sv_table s t !! k = Some c
               | None => sv_table s t !! k = None
               end) /\
  (forall t k t' k' l, me_table m t !! k = Some l -> me_table m t' !! k' = Some l ->
     t = t' /\ k = k').

(** One call made alone: the server afterwards and the reply, [None] if it panics. *)
Definition perform (s : server) (c : call) : server * option reply :=
  match c with
  | CServe ev r w => let '(s', x) := serve_http ev s r w in (s', option_map Served x)
  | CAuthorize now r required w =>
      (s, option_map (fun bw => Authorized (fst bw) (snd bw)) (authorize now s r required w))
  | CSetClient id (Some e) => (set_clients s (<[id := e]> (sv_clients s)), Some Assigned)
  | CSetClient id None => (set_clients s (delete id (sv_clients s)), Some Assigned)
  | CSetUser name (Some e) => (set_users s (<[name := e]> (sv_users s)), Some Assigned)
  | CSetUser name None => (set_users s (delete name (sv_users s)), Some Assigned)
  | CStore t k c => (set_entry s t k c, Some Assigned)
  | CSetConfig cfg => (set_config s cfg, Some Assigned)
  end.

(** Calls made one after the other: the server at the end, and the reply of each. *)
Fixpoint one_by_one (s : server) (cs : list call) : server * list (option reply) :=
  match cs with
  | [] => (s, [])
  | c :: rest =>
      let '(s1, x) := perform s c in
      let '(s2, xs) := one_by_one s1 rest in
      (s2, x :: xs)
  end.

(** The calls with the given numbers, in that order. *)
Fixpoint pick (calls : list call) (order : list nat) : list call :=
  match order with
  | [] => []
  | i :: rest => match calls !! i with
                 | Some c => c :: pick calls rest
                 | None => pick calls rest
                 end
  end.

(** Goroutine [i] is done; its call gave [v] ([None]: it panicked). *)
Definition ended (w : world) (i : nat) (v : option reply) : Prop :=
  wo_threads w !! i = Some (match v with Some a => PRet a | None => PPanic end).
(** Goroutine [i] has not acquired the mutex yet. *)
Definition waiting (calls : list call) (w : world) (i : nat) : Prop :=
  exists c, calls !! i = Some c /\ wo_threads w !! i = Some (call_prog c).

(** All goroutines are done. *)
Definition all_ended (w : world) : Prop :=
  forall i, i < length (wo_threads w) -> exists v, ended w i v.

(** The next step of goroutine [i] is an access to shared memory or to its
    connection. *)
Definition about_to_access (w : world) (i : nat) : Prop :=
  exists p m' p', wo_threads w !! i = Some p /\ access (wo_mem w) p m' p'.
(** Goroutine [i] is stopped before Lock. *)
Definition about_to_lock (w : world) (i : nat) : Prop :=
  exists p, wo_threads w !! i = Some (PLock p).

(** Goroutine [i] can only go on when its client sends the rest of the request,
    or takes the response. *)
Definition awaits (w : world) (i : nat) (x : wait) : Prop :=
  exists p, wo_threads w !! i = Some (PWait x p).
(** The request comes with a body in which an endpoint looks for a form. *)
Definition carries_form (r : request) : Prop :=
  (endpoint r "authorize" \/ endpoint r "token" \/ endpoint r "introspect" \/ endpoint r "revoke") /\
  rq_method r = "POST" /\ rq_body r <> None.
(** A step that needs no client. *)
Definition own_step (w w' : world) : Prop :=
  exists i, wstep i w w' /\ forall x, ~ awaits w i x.
(** Any number of such steps. *)
Inductive own_steps : world -> world -> Prop :=
| own_none w : own_steps w w
| own_more w1 w2 w3 : own_steps w1 w2 -> own_step w2 w3 -> own_steps w1 w3.

(** [i] comes before [j] in the list. *)
Definition before (l : list nat) (i j : nat) : Prop :=
  exists l1 l2 l3, l = l1 ++ i :: l2 ++ j :: l3.

(** The call as an operation of a sequential history. Assignments to the
    credential maps and to Config are not among the operations of History.v. *)
Definition op_of (c : call) : option op :=
  match c with
  | CServe ev r _ => Some (Serve ev r)
  | CAuthorize now r required _ => Some (Check now r required)
  | CSetClient id (Some e) => Some (SetClient id e)
  | CSetClient id None => Some (DropClient id)
  | CSetUser name (Some e) => Some (SetUser name e)
  | CSetUser name None => Some (DropUser name)
  | CStore _ _ _ | CSetConfig _ => None
  end.
(** The reply to the call [c] that was answered [a] in a history: the answer
    as it is written. *)
Definition written (c : call) (a : answer) : option reply :=
  match c, a with
  | CServe _ _ w, Answered o => option_map Served (write_outcome w o)
  | CAuthorize _ _ _ w, Checked Granted => Some (Authorized true w)
  | CAuthorize _ _ _ w, Checked (Denied e) =>
      option_map (fun x => Authorized false (fst x)) (write_bearer_error w (GErr e))
  | CSetClient _ _, Silent | CSetUser _ _, Silent => Some Assigned
  | _, _ => None
  end.

(** The event [e] in the life of a server (Owner.v) is the call [c]. *)
Definition is_event (c : call) (e : event) : Prop :=
  match c, e with
  | CStore t k x, Stored t' k' x' => t' = t /\ k' = k /\ x' = x
  | CSetConfig cfg, Configured cfg' => cfg' = cfg
  | _, Called x => op_of c = Some (st_op x)
  | _, _ => False
  end.
(** The reply to the call [c] that is the event [e]. *)
Definition replied (c : call) (e : event) : option reply :=
  match e with
  | Called x => written c (st_answer x)
  | Configured _ | Stored _ _ _ => Some Assigned
  end.
