(** Vocabulary for what becomes known of the secrets of clients and users. *)
From Verif.Model Require Import Server History.
From Verif.Spec Require Import TokenSpec ScopeSpec WireSpec RequestSpec ServerSpec HistorySpec.

#[local] Open Scope string_scope.

(** The same client or user, but perhaps with another secret. *)
Definition same_but_secret (a b : entity) : Prop :=
  en_redirect_uri a = en_redirect_uri b /\ en_confidential a = en_confidential b.
Definition entries_but_secrets (m1 m2 : gmap string entity) : Prop :=
  forall n, match m1 !! n, m2 !! n with
            | Some a, Some b => same_but_secret a b
            | None, None => True
            | _, _ => False
            end.
(** Two servers that differ in nothing but the secrets of clients and users. *)
Definition equal_but_secrets (s1 s2 : server) : Prop :=
  sv_config s1 = sv_config s2 /\ entries_but_secrets (sv_clients s1) (sv_clients s2) /\
  entries_but_secrets (sv_users s1) (sv_users s2) /\
  sv_access s1 = sv_access s2 /\ sv_refresh s1 = sv_refresh s2 /\ sv_codes s1 = sv_codes s2.

(** The secret is the one of the confidential client. *)
Definition secret_of (s : server) (id secret : string) : Prop :=
  exists c, sv_clients s !! id = Some c /\ en_confidential c = true /\ en_secret c = secret.
(** What the request gives as secret of its client, and as password of a user,
    is right on both servers or wrong on both. *)
Definition fares_alike (s1 s2 : server) (r : request) : Prop :=
  (~ endpoint r "authorize" ->
     let '(id, secret) := client_credentials r in secret_of s1 id secret <-> secret_of s2 id secret) /\
  ((endpoint r "authorize" /\ rq_method r = "POST") \/ (endpoint r "token" /\ body_param r "grant_type" = "password") ->
     let user := body_param r "username" in let password := body_param r "password" in
     password_of s1 user password <-> password_of s2 user password).

(** The same call, except that the owner of the server may give a client or a
    user another secret. *)
Definition same_call (o1 o2 : op) : Prop :=
  o1 = o2 \/
  (exists id a b, o1 = SetClient id a /\ o2 = SetClient id b /\ same_but_secret a b) \/
  (exists n a b, o1 = SetUser n a /\ o2 = SetUser n b /\ same_but_secret a b).
(** Two sequences of the same calls in which all secrets that are presented
    fare alike. *)
Definition fare_alike (l1 l2 : list step) : Prop :=
  List.Forall2 (fun y1 y2 => same_call (st_op y1) (st_op y2) /\
    forall ev r, st_op y1 = Serve ev r -> fares_alike (st_before y1) (st_before y2) r) l1 l2.
