(** Vocabulary for the hosts URLs lead to. *)
From Verif.Model Require Import HttpClient.
From Verif.Spec Require Import WireSpec.

#[local] Open Scope string_scope.

Definition digits (s : string) : Prop :=
  forall a, In a (list_ascii_of_string s) -> In a (list_ascii_of_string "0123456789").

(** The host part of a URL gives a name and a port, "" for none (RFC 3986, section 3.2.2); names
    with a colon are IPv6 addresses and written in brackets, or in front of a port. *)
Definition written_host (s name port : string) : Prop :=
  without "[" name /\ without "]" name /\ digits port /\
  ((s = name /\ port = "" /\ without ":" name) \/ s = name +:+ ":" +:+ port \/
   (s = "[" +:+ name +:+ "]" /\ port = "") \/ s = "[" +:+ name +:+ "]:" +:+ port).

(** The host and the port a URL leads to; only names in ASCII. *)
Definition leads_to_host (u : url) (name port : string) : Prop :=
  ascii_text name /\
  exists p, written_host (u_host u) name p /\
    ((p <> "" /\ port = p) \/
     (p = "" /\ u_scheme u = "http" /\ port = "80") \/ (p = "" /\ u_scheme u = "https" /\ port = "443")).

(** The same port of the same host, or of one below it: "x.host". *)
Definition same_or_below (host port host' port' : string) : Prop :=
  port' = port /\ (host' = host \/ (without ":" host' /\ exists x, host' = x +:+ "." +:+ host)).
