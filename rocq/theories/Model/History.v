(** Sequences of calls to one server. *)
From Verif.Model Require Export Server.

(** What can be done with a server: serve a request (server.go:124-151),
    authorize a request (server.go:81-120), and set or remove an entry of the
    exported maps Clients and Users (server.go:59-60). Assigning to the other
    exported fields (configuration and credentials) is in Owner.v. *)
Inductive op :=
| Serve (ev : env) (r : request)
| Check (now : Z) (r : request) (required : scope)
| SetClient (id : string) (e : entity)
| DropClient (id : string)
| SetUser (name : string) (e : entity)
| DropUser (name : string).

(** The answer of the call, before it is written as in [write_outcome]. *)
Inductive answer :=
| Answered (o : outcome)
| Panicked
| Checked (d : auth_result)
| Silent.

(** server.go:59-60, assignments by the owner of the server. *)
Definition set_clients (s : server) m : server :=
  {| sv_config := sv_config s; sv_clients := m; sv_users := sv_users s;
     sv_access := sv_access s; sv_refresh := sv_refresh s; sv_codes := sv_codes s |}.
(** server.go:60, assignment to [Users]. *)
Definition set_users (s : server) m : server :=
  {| sv_config := sv_config s; sv_clients := sv_clients s; sv_users := m;
     sv_access := sv_access s; sv_refresh := sv_refresh s; sv_codes := sv_codes s |}.

(** One call: server.go:124-151 or 81-120, or an assignment. *)
Definition do_op (s : server) (o : op) : server * answer :=
  match o with
  | Serve ev r =>
      match handle ev s r with
      | Done s' out => (s', Answered out)
      | Panic s' => (s', Panicked)
      end
  | Check now r required => (s, Checked (authorize_decision now s r required))
  | SetClient id e => (set_clients s (<[id := e]> (sv_clients s)), Silent)
  | DropClient id => (set_clients s (delete id (sv_clients s)), Silent)
  | SetUser name e => (set_users s (<[name := e]> (sv_users s)), Silent)
  | DropUser name => (set_users s (delete name (sv_users s)), Silent)
  end.

(** One call with the states before and after it and its answer; no counterpart in
    /repo. *)
Record step := { st_before : server; st_op : op; st_answer : answer; st_after : server }.
(** The step a call makes from a state. *)
Definition step_of (s : server) (o : op) : step :=
  {| st_before := s; st_op := o; st_answer := snd (do_op s o); st_after := fst (do_op s o) |}.

(** The calls made from one state to another, the latest first. *)
Inductive run (s : server) : list step -> server -> Prop :=
| run_nil : run s [] s
| run_step l s1 o : run s l s1 -> run s (step_of s1 o :: l) (fst (do_op s1 o)).

(** All calls since NewServer (server.go:68-77). *)
Definition history (cfg : server_config) (l : list step) (s : server) : Prop :=
  run (new_server cfg) l s.
