(** Vocabulary for what answers depend on. *)
From Verif.Model Require Import Server History.
From Verif.Spec Require Import TokenSpec ScopeSpec WireSpec RequestSpec ServerSpec HistorySpec.

(** The answers to a sequence of calls, in order. *)
Fixpoint answers (s : server) (l : list op) : list answer :=
  match l with
  | [] => []
  | o :: l' => snd (do_op s o) :: answers (fst (do_op s o)) l'
  end.

(** ** Secrets *)

(** Some request of the sequence presents [p] as the secret of the client or as
    the password of the user. *)
Definition tried_secret (l : list op) (id p : string) : Prop :=
  exists ev r, In (Serve ev r) l /\ client_credentials r = (id, p).
Definition tried_password (l : list op) (user p : string) : Prop :=
  exists ev r, In (Serve ev r) l /\ body_param r "username" = user /\ body_param r "password" = p.
(** No tried string tells the two secrets apart. *)
Definition not_told_apart (tried : string -> Prop) (e1 e2 : entity) : Prop :=
  forall p, tried p -> (en_secret e1 = p <-> en_secret e2 = p).
(** Two calls that differ at most in the secret the owner sets. *)
Inductive twin (l : list op) : op -> op -> Prop :=
| twin_same o : twin l o o
| twin_client id e1 e2 : en_redirect_uri e1 = en_redirect_uri e2 -> en_confidential e1 = en_confidential e2 ->
    not_told_apart (tried_secret l id) e1 e2 -> twin l (SetClient id e1) (SetClient id e2)
| twin_user name e1 e2 : not_told_apart (tried_password l name) e1 e2 -> twin l (SetUser name e1) (SetUser name e2).

(** ** Clients *)

(** The request presents a code, refresh token or token that belongs to a
    client other than [id]. *)
Definition presents_foreign (id : string) (s : server) (r : request) : Prop :=
  exists p sg c, In p ["code"; "refresh_token"; "token"] /\ names (server_secret s) (body_param r p) sg /\
    (sv_access s !! sg = Some c \/ sv_refresh s !! sg = Some c \/ sv_codes s !! sg = Some c) /\ cd_client_id c <> id.
(** The bearer token belongs to a client other than [id]. *)
Definition bears_foreign (id : string) (s : server) (r : request) : Prop :=
  exists str c, bearer r str /\ access_token s str c /\ cd_client_id c <> id.

(** A call made by or for the client [id] with its own credentials, or a call of
    the owner of the server. *)
Definition own_call (id : string) (s : server) (o : op) : Prop :=
  match o with
  | Serve ev r => acts_for r id /\ ~ presents_foreign id s r
  | Check now r required => ~ bears_foreign id s r
  | _ => True
  end.
(** A call by another client. It must not replay a code for which the client
    [id] holds tokens (see C44), and the tokens drawn for it must not be among
    those of [id]. *)
Definition foreign_call (id : string) (s : server) (o : op) : Prop :=
  match o with
  | Serve ev r =>
      ~ acts_for r id /\
      (forall k c, sv_access s !! k = Some c \/ sv_refresh s !! k = Some c -> cd_client_id c = id -> ~ replays s r (cd_code c)) /\
      (forall s' a k c, handle ev s r = Done s' a -> cd_client_id c = id ->
         (hands_out_access (server_secret s) a k -> sv_access s !! k <> Some c) /\
         (hands_out_refresh (server_secret s) a k -> sv_refresh s !! k <> Some c) /\
         (hands_out_code (server_secret s) a k -> sv_codes s !! k <> Some c))
  | Check now r required => True
  | _ => False
  end.

(** From the state [s] the calls [l] consist of foreign calls and of the calls in
    [own], which were answered as [own] says. *)
Inductive interleaved (id : string) : server -> list op -> list (op * answer) -> Prop :=
| il_nil s : interleaved id s [] []
| il_own s o l own : own_call id s o -> interleaved id (fst (do_op s o)) l own ->
    interleaved id s (o :: l) ((o, snd (do_op s o)) :: own)
| il_foreign s o l own : foreign_call id s o -> interleaved id (fst (do_op s o)) l own ->
    interleaved id s (o :: l) own.

(** ** Memory *)
Definition answered_with_token (x : step) : Prop := exists ev r t, served x ev r (OToken t).
Definition answered_with_code (x : step) : Prop := exists ev r c, served x ev r (OCode c).

(** ** Credentials left alone *)

(** No request in [l] presents the credential with signature [sg], and no
    answer hands it out again. *)
Definition untouched (secret : string) (l : list step) (sg : string) : Prop :=
  forall y ev r, In y l -> st_op y = Serve ev r ->
    (forall k, ~ names secret (body_param r k) sg) /\
    forall o, st_answer y = Answered o ->
      ~ hands_out_access secret o sg /\ ~ hands_out_refresh secret o sg /\ ~ hands_out_code secret o sg.
