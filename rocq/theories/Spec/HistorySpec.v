(** Vocabulary for the properties of histories. *)
From Verif.Model Require Import Server History.
From Verif.Spec Require Import TokenSpec ScopeSpec WireSpec RequestSpec ServerSpec.

(** The step served the request [r] with the answer [o]. *)
Definition served (x : step) (ev : env) (r : request) (o : outcome) : Prop :=
  st_op x = Serve ev r /\ st_answer x = Answered o.

(** The answer of the step contains the token with signature [sg]. *)
Definition issues_access (secret : string) (x : step) (sg : string) : Prop :=
  exists ev r o, served x ev r o /\ hands_out_access secret o sg.
Definition issues_refresh (secret : string) (x : step) (sg : string) : Prop :=
  exists ev r o, served x ev r o /\ hands_out_refresh secret o sg.
Definition issues_code (secret : string) (x : step) (sg : string) : Prop :=
  exists ev r o, served x ev r o /\ hands_out_code secret o sg.

(** A token request with the given refresh token or code. *)
Definition presents_refresh (secret : string) (r : request) (sg : string) : Prop :=
  endpoint r "token" /\ body_param r "grant_type" = "refresh_token" /\ names secret (body_param r "refresh_token") sg.
Definition presents_code (secret : string) (r : request) (sg : string) : Prop :=
  endpoint r "token" /\ body_param r "grant_type" = "authorization_code" /\ names secret (body_param r "code") sg.
(** It was answered with tokens. *)
Definition redeems_refresh (secret : string) (x : step) (sg : string) : Prop :=
  exists ev r t, served x ev r (OToken t) /\ presents_refresh secret r sg.
Definition redeems_code (secret : string) (x : step) (sg : string) : Prop :=
  exists ev r t, served x ev r (OToken t) /\ presents_code secret r sg.

(** A revocation request for the token was answered 200. *)
Definition revokes (secret : string) (x : step) (sg : string) : Prop :=
  exists ev r, served x ev r ORevoked /\ endpoint r "revoke" /\ names secret (body_param r "token") sg.

(** A token request with the code was refused as unknown. *)
Definition refused_as_unknown (secret : string) (x : step) (sg : string) : Prop :=
  exists ev r e, served x ev r (OError e) /\ presents_code secret r sg /\
    e_name e = "invalid_grant" /\ e_description e = "unknown authorization code".

(** How many elements satisfy [P]. *)
Inductive counts {A} (P : A -> Prop) : list A -> nat -> Prop :=
| counts_nil : counts P [] 0
| counts_yes x l n : P x -> counts P l n -> counts P (x :: l) (S n)
| counts_no x l n : ~ P x -> counts P l n -> counts P (x :: l) n.

(** The last step of [l] satisfying [P] is [x], and [later] came after it. *)
Definition last_step (P : step -> Prop) (l : list step) (x : step) (later : list step) : Prop :=
  exists earlier, l = later ++ x :: earlier /\ P x /\ forall y, In y later -> ~ P y.

(** What ends the life of the access token issued by [x]: its revocation; the
    replay of the code it was issued for; and the attempt of its owner to
    revoke it when it is at the same time the refresh token of another client,
    which is answered with the error "wrong client". *)
Definition ends_access (secret : string) (x y : step) (sg : string) : Prop :=
  revokes secret y sg \/
  (exists k, redeems_code secret x k /\ refused_as_unknown secret y k) \/
  (exists ev r e ev' r' o' id, served y ev r (OError e) /\ endpoint r "revoke" /\ names secret (body_param r "token") sg /\
     e_name e = "invalid_client" /\ e_description e = "wrong client" /\
     served x ev' r' o' /\ acts_for r' id /\ acts_for r id).
(** What ends the life of the refresh token issued by [x]. *)
Definition ends_refresh (secret : string) (x y : step) (sg : string) : Prop :=
  revokes secret y sg \/ redeems_refresh secret y sg \/
  (exists k, redeems_code secret x k /\ refused_as_unknown secret y k).

(** The step is a request in which the client presented the user's current
    password and asked for the scope [sc]: the password grant or the
    authorization endpoint. *)
Definition approves (x : step) (client user : string) (sc : scope) : Prop :=
  exists ev r o, served x ev r o /\ acts_for r client /\ body_param r "username" = user /\
    password_of (st_before x) user (body_param r "password") /\
    ((endpoint r "token" /\ body_param r "grant_type" = "password" /\ sc = parse_scope (body_param r "scope")) \/
     (endpoint r "authorize" /\ rq_method r = "POST" /\ sc = parse_scope (form_param r "scope"))).

(** The step is a successful authorization request [r], made with the user's
    password, whose answer contained the code with signature [sg]. *)
Definition grants_code (secret : string) (x : step) (sg : string) (ev : env) (r : request) : Prop :=
  exists c, served x ev r (OCode c) /\ names secret (cr_code c) sg /\ endpoint r "authorize" /\ rq_method r = "POST" /\
    password_of (st_before x) (body_param r "username") (body_param r "password").

(** The last that is visible of the access token is that [r] was answered with
    it; the answer was [t]. *)
Definition still_access (secret : string) (l : list step) (sg : string) (ev : env) (r : request) (t : token_response) : Prop :=
  exists x later, last_step (fun y => issues_access secret y sg) l x later /\ served x ev r (OToken t) /\
    forall y, In y later -> ~ ends_access secret x y sg.
(** The same for a refresh token. *)
Definition still_refresh (secret : string) (l : list step) (sg : string) (ev : env) (r : request) (t : token_response) : Prop :=
  exists x later, last_step (fun y => issues_refresh secret y sg /\ ~ redeems_refresh secret y sg) l x later /\
    served x ev r (OToken t) /\ forall y, In y later -> ~ ends_refresh secret x y sg.
(** The answer reports an active token with this owner, scope and expiry, the
    expiry in whole seconds. *)
Definition tells (x : introspection_response) (id : string) (sc : scope) (expires : Z) : Prop :=
  ir_active x = true /\ ir_client_id x = id /\ ir_scope x = sc /\
  (ir_expires_at x * 1000000000 <= expires < (ir_expires_at x + 1) * 1000000000)%Z.
