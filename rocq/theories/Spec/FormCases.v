(** Concrete requests for C75. *)
From Verif.Model Require Import Server.
From Verif.Spec Require Import FormSpec.

Definition form_request (query ctype body : string) (ends : bool) : request :=
  {| rq_method := "POST"; rq_path := "/oauth2/token"; rq_query := query; rq_auth := "";
     rq_ctype := ctype; rq_body := Some (body, ends); rq_preset := None |}.
(** Any case, two parameters, a quoted value with an escape, and a semicolon too many. *)
Definition typed_case := "Application/X-www-form-urlencoded; charset=utf-8; b = ""x;\""y"" ;".
(** A parameter comes twice, or has no value. *)
Definition ill_typed_case1 := "application/x-www-form-urlencoded; a=1; A=2".
Definition ill_typed_case2 := "application/json; charset".
(** Blanks in two spellings, both separators, an empty field, a key without value and
    a repeated key. *)
Definition form_case : request :=
  form_request "state=%C3%A9&username=query" typed_case
    "grant_type=password&username=user+1&client_id=c&&x;scope=a%20b;password=%70w=1&username=second" true.
Definition form_case_body : list (string * string) :=
  [("grant_type", "password"); ("username", "user 1"); ("client_id", "c"); ("x", "");
   ("scope", "a b"); ("password", "pw=1"); ("username", "second")].
Definition form_case_query : list (string * string) :=
  [("state", String "195" (String "169" "")); ("username", "query")].
