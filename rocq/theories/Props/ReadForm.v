(** C101: requests are read to their end however they arrive. *)
From Verif.Model Require Import ReadForm Server.
From Verif.Spec Require Import ReadAllSpec ReadFormSpec.
From Verif.Proof Require Import ReadFormProofs.

#[local] Open Scope string_scope.

(** A body that arrives in any pieces gives the form of the whole body, and no other. *)
Theorem C101_form : forall S (rd : body_reader S) st r body clean res, comes rd st body clean ->
  parse_form_on rd st r res <-> res = parse_form (request_with r body clean).
Proof. exact c101_form. Qed.
Print Assumptions C101_form.

(** Whatever the body does, the form is one of the bytes its calls of Read returned,
    and at most one byte more than 10 MB is taken. *)
Theorem C101_any : forall S (rd : body_reader S) st r res, parse_form_on rd st r res ->
  exists data ok, res = parse_form (request_with r data ok) /\
    (exists st' failed, calls rd st data failed st') /\
    (honest rd -> (Z.of_nat (String.length data) <= 10485761)%Z).
Proof. exact c101_any. Qed.
Print Assumptions C101_any.

(** Reading a body that advances comes to an end. *)
Theorem C101_returns : forall S (rd : body_reader S) st r, advances rd -> exists res, parse_form_on rd st r res.
Proof. exact c101_returns. Qed.
Print Assumptions C101_returns.

(** A server that read this form answers as it answers the whole body. *)
Theorem C101_answer : forall S (rd : body_reader S) st r ev s w body clean data ok, comes rd st body clean ->
  parse_form_on rd st r (parse_form (request_with r data ok)) ->
  serve_http ev s (request_with r data ok) w = serve_http ev s (request_with r body clean) w.
Proof. exact c101_answer. Qed.
Print Assumptions C101_answer.

(** A form that arrives byte by byte, and one that breaks off with its last byte. *)
Definition small_form : request :=
  {| rq_method := "POST"; rq_path := "/oauth2/token"; rq_query := ""; rq_auth := "";
     rq_ctype := "application/x-www-form-urlencoded"; rq_body := None; rq_preset := None |}.

Example C101_form_case :
  (exists f, parse_form_on (drip NoErr EndOfFile) "grant_type=password&scope=a+b" small_form (Some f) /\ vget (f_post f) "scope" = "a b") /\
  (exists f, parse_form_on (drip EndOfFile EndOfFile) "grant_type=password&scope=a+b" small_form (Some f) /\ vget (f_post f) "scope" = "a b") /\
  (forall res, parse_form_on (drip ReadError ReadError) "grant_type=password&scope=a+b" small_form res -> res = None).
Proof.
  split; [|split].
  - eexists. split; [apply (c101_form _ _ _ _ _ _ _ (drip_comes true _)); vm_compute; reflexivity|vm_compute; reflexivity].
  - eexists. split; [apply (c101_form _ _ _ _ _ _ _ (drip_comes_at_once true _)); vm_compute; reflexivity|vm_compute; reflexivity].
  - intros res H. apply (c101_form _ _ _ _ _ _ _ (drip_comes_at_once false _)) in H. subst. vm_compute. reflexivity.
Qed.
(** The hypotheses of [C101_answer], for another spelling of the same form. *)
Example C101_answer_case :
  parse_form_on (drip NoErr EndOfFile) "scope=a+b" small_form (parse_form (request_with small_form "scope=a%20b" true)).
Proof. apply (c101_form _ _ _ _ _ _ _ (drip_comes true _)). vm_compute. reflexivity. Qed.
Example C101_returns_case : advances (drip NoErr EndOfFile) /\ advances (drip ReadError ReadError).
Proof. by split; apply ReadAllProofs.drip_advances. Qed.
