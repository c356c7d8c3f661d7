(** Vocabulary of C79: what a client makes of the answer of any server. *)
From Verif.Model Require Import Server Client.
From Verif.Spec Require Import ScopeSpec WireSpec RequestSpec FormSpec ClientSpec.
From Verif.Spec Require Export TextSpec.

#[local] Open Scope string_scope.

(** ** The members of an object *)

(** The key of a member names a field up to the case of letters; U+017F counts as
    an s and U+212A as a k. *)
Inductive names : string -> string -> Prop :=
| names_end : names "" ""
| names_letter a c key field : same_letter a c -> names key field -> names (String a key) (String c field)
| names_long_s key field : names key field -> names (utf8 0x17f +:+ key) (String "s" field)
| names_kelvin key field : names key field -> names (utf8 0x212a +:+ key) (String "k" field).

(** The values given for a field, in order. Other members are passed over. *)
Inductive given (field : string) : list (string * json) -> list json -> Prop :=
| given_none : given field [] []
| given_this key v o l : names key field -> given field o l -> given field ((key, v) :: o) (v :: l)
| given_other key v o l : ~ names key field -> given field o l -> given field ((key, v) :: o) l.

(** A field has the last value that is not null, or else its zero value. All other
    values must be of the type, too. *)
Definition last_given {A} (is : json -> A -> Prop) (zero : A) (l : list json) (x : A) : Prop :=
  (forall v, In v l -> v = JNull \/ exists y, is v y) /\
  ((x = zero /\ Forall (eq JNull) l) \/
   exists before v after, l = (before ++ v :: after)%list /\ is v x /\ Forall (eq JNull) after).
Definition field_is {A} (is : json -> A -> Prop) (zero : A) (field : string) (o : list (string * json)) (x : A) : Prop :=
  exists l, given field o l /\ last_given is zero l x.

Definition is_text (v : json) (s : string) : Prop := v = JStr s.
Definition is_truth (v : json) (b : bool) : Prop := v = JBool b.
(** An integer: digits, without fraction and exponent, in the range of 64 bits. *)
Definition is_integer (v : json) (z : Z) : Prop :=
  exists sign d, In sign [""; "-"] /\ decimal_digits d /\ v = JNum (sign +:+ d) /\ int64 z /\
    z = if decide (sign = "-") then (- digits_value d)%Z else digits_value d.

Definition text_field := field_is is_text "".
Definition truth_field := field_is is_truth false.
Definition integer_field := field_is is_integer 0%Z.

(** A scope is the last one given, where null stands for the empty text. *)
Definition scope_field (field : string) (o : list (string * json)) (sc : scope) : Prop :=
  exists l, given field o l /\ (forall v, In v l -> v = JNull \/ exists s, v = JStr s) /\
    ((l = [] /\ sc = None) \/
     exists before v s, l = (before ++ [v])%list /\ (v = JStr s \/ (v = JNull /\ s = "")) /\ sc = parse_scope s).

(** ** Values of any type *)

(** [t] is a table, in the order of the keys, with the last value of every key in [l]. *)
Definition last_of (k : string) (l : list (string * json)) (v : json) : Prop :=
  exists before after, l = (before ++ (k, v) :: after)%list /\ ~ In k (map fst after).
Definition table_of (l t : list (string * json)) : Prop :=
  StronglySorted key_before t /\ forall k v, In (k, v) t <-> last_of k l v.

(** The Go value of a JSON value: numbers are the nearest float64. *)
Inductive reads : json -> json -> Prop :=
| reads_null : reads JNull JNull
| reads_bool b : reads (JBool b) (JBool b)
| reads_number s v f : number s v -> float_range v -> nearest v f -> (f_neg f = true <-> exists r, s = String "-" r) ->
    reads (JNum s) (JNum (format_float f))
| reads_string s : reads (JStr s) (JStr s)
| reads_slice l l' : Forall2 reads l l' -> reads (JArr l) (JArr l')
| reads_object l l' t : Forall2 (fun a b => fst a = fst b /\ reads (snd a) (snd b)) l l' -> table_of l' t ->
    reads (JObj l) (JObj t).
Definition member_reads (l l' : list (string * json)) : Prop :=
  Forall2 (fun a b => fst a = fst b /\ reads (snd a) (snd b)) l l'.

(** A map has the members of all the objects given after the last null. *)
Definition map_field (field : string) (o : list (string * json)) (m : go_map) : Prop :=
  exists before objects tables, given field o (before ++ map JObj objects)%list /\
    (forall v, In v before -> v = JNull \/ exists l l', v = JObj l /\ member_reads l l') /\
    (before = [] \/ exists b, before = (b ++ [JNull])%list) /\
    Forall2 member_reads objects tables /\
    ((objects = [] /\ m = None) \/ (objects <> [] /\ exists t, m = Some t /\ table_of (List.concat tables) t)).

(** No number in the value is written with more than 9000 bytes. *)
Definition short_numbers (j : json) : Prop := forall s, number_in s j -> (Z.of_nat (String.length s) <= 9000)%Z.

(** ** Documents *)

(** The document null gives no member. *)
Definition members_are (j : json) (o : list (string * json)) : Prop := j = JObj o \/ (j = JNull /\ o = []).

Definition token_document (j : json) (r : token_response) : Prop :=
  exists o, members_are j o /\ text_field "token_type" o (tr_token_type r) /\ text_field "access_token" o (tr_access_token r) /\
    integer_field "expires_in" o (tr_expires_in r) /\ text_field "refresh_token" o (tr_refresh_token r) /\
    scope_field "scope" o (tr_scope r) /\ text_field "state" o (tr_state r) /\ tr_redirect_uri r = "".
Definition introspection_document (j : json) (r : introspection_response) : Prop :=
  exists o, members_are j o /\ truth_field "active" o (ir_active r) /\ scope_field "scope" o (ir_scope r) /\
    text_field "client_id" o (ir_client_id r) /\ text_field "username" o (ir_username r) /\
    text_field "token_type" o (ir_token_type r) /\ integer_field "exp" o (ir_expires_at r) /\
    integer_field "iat" o (ir_issued_at r) /\ integer_field "nbf" o (ir_not_before r) /\
    text_field "sub" o (ir_subject r) /\ text_field "aud" o (ir_audience r) /\ text_field "iss" o (ir_issuer r) /\
    text_field "jti" o (ir_identifier r) /\ map_field "extra" o (ir_extra r).
Definition error_document (j : json) (status : Z) (e : error) : Prop :=
  exists o, members_are j o /\ text_field "error" o (e_name e) /\ text_field "state" o (e_state e) /\
    scope_field "scope" o (e_scope e) /\ text_field "realm" o (e_realm e) /\
    text_field "error_description" o (e_description e) /\ text_field "error_uri" o (e_uri e) /\
    e_status e = status /\ e_headers e = ∅ /\ e_redirect_uri e = "" /\ e_use_fragment e = false.

(** ** Answers *)

(** The part of the body the client looks at: all of it, or as many bytes as the
    limit allows. *)
Definition looked_at (rs : response) (limit : Z) (data : string) : Prop :=
  exists rest, rs_body rs = data +:+ rest /\
    ((rest = "" /\ (Z.of_nat (String.length data) < limit)%Z) \/ Z.of_nat (String.length data) = Z.max 0 limit).
(** The body broke off, and before the limit. *)
Definition broken_off (rs : response) (limit : Z) : Prop :=
  rs_clean rs = false /\ (Z.of_nat (String.length (rs_body rs)) < limit)%Z.
(** It says this. *)
Definition body_says (rs : response) (limit : Z) (j : json) : Prop :=
  exists data, looked_at rs limit data /\ json_text data j /\ (levels j <= 10000)%N.

Definition json_typed (ct : string) : Prop := typed "application/json" ct.

Definition token_answer (rs : response) (limit : Z) (r : token_response) : Prop :=
  json_typed (rs_ctype rs) /\ ~ broken_off rs limit /\ exists j, body_says rs limit j /\ token_document j r.
Definition introspection_answer (rs : response) (limit : Z) (r : introspection_response) : Prop :=
  json_typed (rs_ctype rs) /\ ~ broken_off rs limit /\ exists j, body_says rs limit j /\ introspection_document j r.
(** The content type of an error does not matter. *)
Definition error_answer (rs : response) (limit : Z) (e : error) : Prop :=
  exists j, body_says rs limit j /\ error_document j (rs_status rs) e.

(** What a call has to return: what the answer says, or an error without name. *)
Definition refusal (rs : response) (limit : Z) (err : goerr) : Prop :=
  (exists e, error_answer rs limit e /\ err = GErr e) \/ ((forall e, ~ error_answer rs limit e) /\ err = GOther).
Definition outcome {A} (answer : response -> Z -> A -> Prop) (rs : response) (limit : Z) (o : A + goerr) : Prop :=
  (rs_status rs = 200%Z /\
   ((exists a, answer rs limit a /\ o = inl a) \/ ((forall a, ~ answer rs limit a) /\ o = inr GOther))) \/
  (rs_status rs <> 200%Z /\ exists err, refusal rs limit err /\ o = inr err).
