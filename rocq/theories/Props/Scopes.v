(** C07 - C10: scopes. *)
From Verif.Model Require Import Scope Oauth2.
From Verif.Spec Require Import ScopeSpec JsonSpec.
From Verif.Proof Require Import StrFacts ScopeFacts JsonFacts ScopeProofs.

(** C07. ParseScope yields a normal form: good items only, stable under another
    round, nil exactly for white space. *)
Theorem C07_parse_scope_normal_form : forall s,
  Forall good_item (items (parse_scope s)) /\
  parse_scope (scope_string (parse_scope s)) = parse_scope s /\
  (parse_scope s = None <-> only_white s).
Proof. exact c07_normal_form. Qed.
Print Assumptions C07_parse_scope_normal_form.

(** The items are exactly the non-empty cores of the pieces between spaces, in
    order. *)
Theorem C07_parse_scope_items : forall s,
  exists pieces : list (string * string * string),
  s = join " " (map (fun p => p.1.1 +:+ p.1.2 +:+ p.2) pieces) /\
  Forall (fun p => only_white p.1.1 /\ only_white p.2 /\ (p.1.2 = "" \/ good_item p.1.2) /\
            ~ has_byte " " (p.1.1 +:+ p.1.2 +:+ p.2)) pieces /\
  items (parse_scope s)
    = List.filter (fun i => negb (String.eqb i "")) (map (fun p => p.1.2) pieces).
Proof. exact c07_decomposition. Qed.
Print Assumptions C07_parse_scope_items.

Example C07_case :
  parse_scope ("  foo " +:+ str1 "009" +:+ "bar" +:+ utf8 0x3000 +:+ "  foo ") = Some ["foo"; "bar"; "foo"] /\
  parse_scope (" " +:+ utf8 0x2003 +:+ " ") = None.
Proof. vm_compute. split; reflexivity. Qed.

(** C08. Well-formed scopes, and only those, survive String and ParseScope. *)
Theorem C08_scope_string_roundtrip : forall sc,
  items (parse_scope (scope_string sc)) = items sc <-> Forall good_item (items sc).
Proof. exact c08_proof. Qed.
Print Assumptions C08_scope_string_roundtrip.

Example C08_case :
  parse_scope (scope_string (Some ["read:all"; "write"])) = Some ["read:all"; "write"] /\
  Forall good_item ["read:all"; "write"] /\
  parse_scope (scope_string (Some ["a b"; ""])) = Some ["a"; "b"].
Proof.
  split; [vm_compute; reflexivity|]. split; [|vm_compute; reflexivity].
  apply (C08_scope_string_roundtrip (Some ["read:all"; "write"])). vm_compute. reflexivity.
Qed.

(** C09. Inclusion is inclusion of sets. *)
Theorem C09_inclusion_is_set_inclusion : forall s t u x,
  (scope_contains s x = true <-> In x (items s)) /\
  (scope_includes s t = true <-> incl (items t) (items s)) /\
  scope_includes s s = true /\
  (scope_includes s t = true -> scope_includes t u = true -> scope_includes s u = true) /\
  (items t = [] -> scope_includes s t = true) /\
  (scope_empty s = true <-> forall y, scope_contains s y = false).
Proof. exact c09_proof. Qed.
Print Assumptions C09_inclusion_is_set_inclusion.

Theorem C09_inclusion_ignores_order_and_duplicates : forall s s' t t',
  (forall x, In x (items s) <-> In x (items s')) ->
  (forall x, In x (items t) <-> In x (items t')) ->
  scope_includes s t = scope_includes s' t'.
Proof. exact c09_order. Qed.
Print Assumptions C09_inclusion_ignores_order_and_duplicates.

Example C09_case :
  scope_includes (Some ["a"; "b"; "c"]) (Some ["c"; "a"; "a"]) = true /\
  scope_includes (Some ["a"; "b"]) (Some ["a"; "c"]) = false /\
  scope_includes None None = true.
Proof. repeat split; reflexivity. Qed.

(** C10. JSON round trip. *)
Theorem C10_scope_json_roundtrip : forall sc old,
  Forall good_item (items sc) -> Forall valid_utf8 (items sc) ->
  exists sc', scope_unmarshal old (scope_marshal sc) = (sc', true) /\ items sc' = items sc.
Proof. exact c10_roundtrip. Qed.
Print Assumptions C10_scope_json_roundtrip.

(** Every JSON string is parsed as a scope, null gives the empty scope, an
    error leaves the target alone. *)
Theorem C10_scope_unmarshal : forall old text,
  (forall v, json_string_text text v -> scope_unmarshal old text = (parse_scope v, true)) /\
  (json_null_text text -> scope_unmarshal old text = (None, true)) /\
  (snd (scope_unmarshal old text) = false -> fst (scope_unmarshal old text) = old).
Proof. exact c10_unmarshal. Qed.
Print Assumptions C10_scope_unmarshal.

(** Nothing but a quoted text or null is ever accepted. *)
Theorem C10_scope_unmarshal_only_strings : forall old text sc,
  scope_unmarshal old text = (sc, true) ->
  (json_null_text text /\ sc = None) \/
  (exists b1 b2 body, json_blank b1 /\ json_blank b2 /\
     text = b1 +:+ String dq (body +:+ String dq b2) /\ exists v, sc = parse_scope v).
Proof. exact c10_only_strings. Qed.
Print Assumptions C10_scope_unmarshal_only_strings.

Example C10_case :
  scope_marshal (Some ["foo"; "bar"]) = String dq ("foo bar" +:+ String dq "") /\
  scope_unmarshal (Some ["x"]) (String dq ("foo bar" +:+ String dq " ")) = (Some ["foo"; "bar"], true) /\
  scope_unmarshal (Some ["x"]) "[1]" = (Some ["x"], false) /\
  scope_unmarshal (Some ["x"]) "null" = (None, true).
Proof. vm_compute. repeat split; reflexivity. Qed.
Example C10_text : json_string_text (String dq ("a\u0062" +:+ String dq " ")) "ab".
Proof.
  exists "", " ", "a\u0062". split; [constructor|]. split; [constructor; [left; reflexivity|constructor]|].
  split; [|reflexivity].
  apply (lit_plain 0x61 "\u0062" "b"); [left; reflexivity|vm_compute; congruence|congruence|congruence|].
  apply (lit_unicode "\u0062" 0x62 "" ""); [|left; reflexivity|constructor].
  exists "0"%char, "0"%char, "6"%char, "2"%char, 0%N, 0%N, 6%N, 2%N.
  split; [left; reflexivity|]. split; [left; reflexivity|]. split; [left; reflexivity|].
  split; [left; reflexivity|]. split; reflexivity.
Qed.
