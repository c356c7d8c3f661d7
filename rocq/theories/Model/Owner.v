(** Everything the owner of a server can do with it from Go. *)
From Verif.Model Require Export Server History Concurrent.

(** server.go:58, assignment to [Config]. *)
Definition set_config (s : server) (cfg : server_config) : server :=
  {| sv_config := cfg; sv_clients := sv_clients s; sv_users := sv_users s;
     sv_access := sv_access s; sv_refresh := sv_refresh s; sv_codes := sv_codes s |}.

(** server.go:61-63, setting ([Some]) or deleting ([None]) an entry of the
    exported maps [AccessTokens], [RefreshTokens] and [AuthorizationCodes], as
    server_test.go:39-83 does. Writing through the pointer of an entry is the
    same as setting the entry. Simplification: two entries never share a
    pointer, and the owner does not make a map nil. *)
Definition set_entry (s : server) (t : table) (k : string) (c : option credential) : server :=
  let upd (m : gmap string credential) :=
    match c with Some x => <[k := x]> m | None => delete k m end in
  {| sv_config := sv_config s; sv_clients := sv_clients s; sv_users := sv_users s;
     sv_access := match t with TAccess => upd (sv_access s) | _ => sv_access s end;
     sv_refresh := match t with TRefresh => upd (sv_refresh s) | _ => sv_refresh s end;
     sv_codes := match t with TCodes => upd (sv_codes s) | _ => sv_codes s end |}.

(** A call, or an assignment (server.go:58-63). *)
Inductive event :=
| Called (x : step)
| Configured (cfg : server_config)
| Stored (t : table) (k : string) (c : option credential).

(** Everything that happened since NewServer (server.go:68-77), the latest
    first, and the server now. *)
Inductive owned : list event -> server -> Prop :=
| owned_new cfg : owned [] (new_server cfg)
| owned_call l s o : owned l s -> owned (Called (step_of s o) :: l) (fst (do_op s o))
| owned_config l s cfg : owned l s -> owned (Configured cfg :: l) (set_config s cfg)
| owned_store l s t k c : owned l s -> owned (Stored t k c :: l) (set_entry s t k c).
