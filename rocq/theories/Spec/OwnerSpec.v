(** Vocabulary for histories in which the owner also changes the configuration
    and the stored credentials. The secret in force at a call is that of the
    server before it. *)
From Verif.Model Require Import Server History Concurrent Owner.
From Verif.Spec Require Import TokenSpec ScopeSpec WireSpec RequestSpec ServerSpec HistorySpec.

(** The last event of [l] satisfying [P] is [e], and [later] came after it. *)
Definition latest (P : event -> Prop) (l : list event) (e : event) (later : list event) : Prop :=
  exists earlier, l = later ++ e :: earlier /\ P e /\ forall y, In y later -> ~ P y.

(** The secret and the configuration in force at a call. *)
Definition then_secret (x : step) : string := server_secret (st_before x).
Definition then_config (x : step) : server_config := sv_config (st_before x).

(** The access token with signature [sg] came into being, for the scope [sc],
    to expire at [expires]: it was answered, or the owner stored it. *)
Definition brings_access (e : event) (sg : string) (sc : scope) (expires : Z) : Prop :=
  match e with
  | Called x => exists ev r t, served x ev r (OToken t) /\ names (then_secret x) (tr_access_token t) sg /\
      sc = tr_scope t /\ expires = (ev_now_access ev + cfg_access_lifespan (then_config x))%Z
  | Stored TAccess k (Some c) => k = sg /\ sc = cd_scope c /\ expires = cd_expires_at c
  | _ => False
  end.
(** The same for a refresh token of the client [id]. A redemption that hands
    out the redeemed token again does not count. *)
Definition brings_refresh (e : event) (sg id : string) (sc : scope) (expires : Z) : Prop :=
  match e with
  | Called x => exists ev r t, served x ev r (OToken t) /\ names (then_secret x) (tr_refresh_token t) sg /\
      ~ redeems_refresh (then_secret x) x sg /\ acts_for r id /\
      sc = tr_scope t /\ expires = (ev_now_refresh ev + cfg_refresh_lifespan (then_config x))%Z
  | Stored TRefresh k (Some c) => k = sg /\ id = cd_client_id c /\ sc = cd_scope c /\ expires = cd_expires_at c
  | _ => False
  end.
(** The same for a code that can be redeemed by the client [id] with the
    redirect URI [uri]; a code stored as used cannot be redeemed. *)
Definition brings_code (e : event) (sg id uri : string) (expires : Z) : Prop :=
  match e with
  | Called x => exists ev r c, served x ev r (OCode c) /\ names (then_secret x) (cr_code c) sg /\
      id = form_param r "client_id" /\ query_unescape (form_param r "redirect_uri") = Some uri /\
      expires = (ev_now_code ev + cfg_code_lifespan (then_config x))%Z
  | Stored TCodes k (Some c) =>
      k = sg /\ id = cd_client_id c /\ uri = cd_redirect_uri c /\ expires = cd_expires_at c /\ cd_used c = false
  | _ => False
  end.

(** The token that came into being by [e] belongs to the code [k]. *)
Definition belongs_to_code (e : event) (k : string) : Prop :=
  match e with
  | Called x => redeems_code (then_secret x) x k
  | Stored _ _ (Some c) => cd_code c = k
  | _ => False
  end.
(** It belongs to the client [id]. *)
Definition belongs_to_client (e : event) (id : string) : Prop :=
  match e with
  | Called x => exists ev r o, served x ev r o /\ acts_for r id
  | Stored _ _ (Some c) => cd_client_id c = id
  | _ => False
  end.
(** [y] is the replay of the code [k], which the server still knows. *)
Definition replays (y : step) (k : string) : Prop :=
  refused_as_unknown (then_secret y) y k /\ is_Some (sv_codes (st_before y) !! k).

(** What ends the access token that came into being by [e]: the owner deletes
    it; it is revoked; its code is replayed; or (as in [ends_access]) its client
    tries to revoke it while another client has the same token as refresh token. *)
Definition takes_access (e y : event) (sg : string) : Prop :=
  match y with
  | Stored TAccess k None => k = sg
  | Called x =>
      revokes (then_secret x) x sg \/ (exists k, belongs_to_code e k /\ replays x k) \/
      (exists ev r err id, served x ev r (OError err) /\ endpoint r "revoke" /\ names (then_secret x) (body_param r "token") sg /\
         e_name err = "invalid_client" /\ e_description err = "wrong client" /\ belongs_to_client e id /\ acts_for r id)
  | _ => False
  end.
(** What ends a refresh token. *)
Definition takes_refresh (e y : event) (sg : string) : Prop :=
  match y with
  | Stored TRefresh k None => k = sg
  | Called x =>
      revokes (then_secret x) x sg \/ redeems_refresh (then_secret x) x sg \/
      (exists k, belongs_to_code e k /\ replays x k)
  | _ => False
  end.
(** What ends a code: it is redeemed, deleted, or marked as used by the owner. *)
Definition takes_code (y : event) (sg : string) : Prop :=
  match y with
  | Stored TCodes k (Some c) => k = sg /\ cd_used c = true
  | Stored TCodes k None => k = sg
  | Called x => redeems_code (then_secret x) x sg
  | _ => False
  end.
