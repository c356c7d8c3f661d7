(** Vocabulary for what an answer depends on and what a request changes. *)
From Verif.Model Require Import Server History.
From Verif.Spec Require Import TokenSpec ScopeSpec WireSpec RequestSpec ServerSpec HistorySpec.

(** The names under which a server keeps its data: client ids, user names, and
    the signatures of access tokens, refresh tokens and codes. *)
Inductive record :=
| Client (id : string)
| User (name : string)
| Access (sg : string)
| Refresh (sg : string)
| Code (sg : string).

(** Both servers keep the same under this name, or both nothing. *)
Definition agree (s1 s2 : server) (x : record) : Prop :=
  match x with
  | Client id => sv_clients s1 !! id = sv_clients s2 !! id
  | User name => sv_users s1 !! name = sv_users s2 !! name
  | Access sg => sv_access s1 !! sg = sv_access s2 !! sg
  | Refresh sg => sv_refresh s1 !! sg = sv_refresh s2 !! sg
  | Code sg => sv_codes s1 !! sg = sv_codes s2 !! sg
  end.
(** The server keeps nothing under this name. *)
Definition vacant (s : server) (x : record) : Prop :=
  match x with
  | Client id => sv_clients s !! id = None
  | User name => sv_users s !! name = None
  | Access sg => sv_access s !! sg = None
  | Refresh sg => sv_refresh s !! sg = None
  | Code sg => sv_codes s !! sg = None
  end.

(** The names a request to the server mentions: its client, the user whose
    password it gives, and the code or token it presents. *)
Inductive mentions (secret : string) (r : request) : record -> Prop :=
| m_client id : acts_for r id -> mentions secret r (Client id)
| m_user : (endpoint r "authorize" /\ rq_method r = "POST") \/
           (endpoint r "token" /\ body_param r "grant_type" = "password") ->
    mentions secret r (User (body_param r "username"))
| m_code sg : presents_code secret r sg -> mentions secret r (Code sg)
| m_refresh sg : presents_refresh secret r sg -> mentions secret r (Refresh sg)
| m_lookup_access sg : endpoint r "introspect" \/ endpoint r "revoke" -> names secret (body_param r "token") sg ->
    mentions secret r (Access sg)
| m_lookup_refresh sg : endpoint r "introspect" \/ endpoint r "revoke" -> names secret (body_param r "token") sg ->
    mentions secret r (Refresh sg).

(** The names a call mentions: those of the request; for Authorize the bearer
    token; for an assignment the entry. *)
Definition call_mentions (secret : string) (o : op) (x : record) : Prop :=
  match o with
  | Serve ev r => mentions secret r x
  | Check now r required => exists str sg, bearer r str /\ names secret str sg /\ x = Access sg
  | SetClient id _ | DropClient id => x = Client id
  | SetUser name _ | DropUser name => x = User name
  end.

(** What an answer gives away, by name. *)
Definition gives (secret : string) (a : answer) (x : record) : Prop :=
  exists o, a = Answered o /\
  match x with
  | Access sg => hands_out_access secret o sg
  | Refresh sg => hands_out_refresh secret o sg
  | Code sg => hands_out_code secret o sg
  | _ => False
  end.

(** Two calls with the same state before them. Each leaves alone what the other
    mentions, and what they give away is new and not the same. *)
Definition independent (s : server) (o1 o2 : op) : Prop :=
  let secret := server_secret s in
  (forall x, call_mentions secret o1 x -> agree s (fst (do_op s o2)) x) /\
  (forall x, call_mentions secret o2 x -> agree s (fst (do_op s o1)) x) /\
  (forall x, gives secret (snd (do_op s o1)) x -> vacant s x) /\
  (forall x, gives secret (snd (do_op s o2)) x -> vacant s x) /\
  (forall x, ~ (gives secret (snd (do_op s o1)) x /\ gives secret (snd (do_op s o2)) x)).

(** Calls of some clients among calls of others. [mine] picks the requests of
    the clients [A] and the changes of their entries; changes of users concern
    all and are picked as well. *)
Definition divides (A : string -> Prop) (mine : op -> bool) (o : op) : Prop :=
  match o with
  | Serve _ r => forall id, acts_for r id -> A id <-> mine o = true
  | Check _ _ _ => True
  | SetClient id _ | DropClient id => A id <-> mine o = true
  | SetUser _ _ | DropUser _ => mine o = true
  end.
(** The picked calls with their answers, as if the others had not been made. *)
Definition undisturbed (cfg : server_config) (mine : op -> bool) (l : list step) : Prop :=
  exists l' s', history cfg l' s' /\
    map (fun y => (st_op y, st_answer y)) l' =
    map (fun y => (st_op y, st_answer y)) (List.filter (fun y => mine (st_op y)) l).
