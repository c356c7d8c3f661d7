(** Vocabulary for a client with the default settings. *)
From Verif.Model Require Import HttpClient.
From Verif.Spec Require Import ScopeSpec WireSpec RequestSpec ServerSpec ClientSpec TransportSpec.

(** A base URI as it is usually given: http or https, a host, perhaps a path,
    and neither a query nor a fragment. *)
Definition base_uri (base : string) : Prop :=
  exists u, url_parse base = Some u /\ In (u_scheme u) ["http"; "https"] /\ remove_empty_port (u_host u) <> "" /\
    without "?" base /\ without "#" base.

(** The client NewClient(Default(base)) makes. *)
Definition default_client (base : string) : client_config := new_client (client_default base).

(** The name of the endpoint a call is for. *)
Definition endpoint_name (k : call) : string :=
  match k with CallAuthenticate _ => "token" | CallIntrospect _ => "introspect" | CallRevoke _ => "revoke" end.

(** The length of the text of a scope. *)
Definition scope_bytes (sc : scope) : nat := String.length (String.concat " " (items sc)).

(** One message, and this result. *)
Definition one_message {A} (x : list message * option A) (a : A) : Prop := exists w, x = ([w], Some a).
