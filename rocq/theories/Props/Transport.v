(** C76 and C77: where the requests of a client go, and what arrives. *)
From Verif.Model Require Import HttpClient.
From Verif.Spec Require Import ScopeSpec WireSpec RequestSpec ServerSpec ClientSpec TransportSpec HostSpec Cases ClientCases TransportCases.
From Verif.Proof Require Import TransportProofs ArrivalProofs ReferenceProofs RefererProofs HostProofs ClientCase TransportCase.

#[local] Open Scope string_scope.
#[local] Opaque handle parse_token.

(** C76, in full: every message of a call goes to the configured server. That
    is false: a server that answers 307 or 308 makes the client send the
    parameters, here a password, to another server, over plain HTTP... *)
Theorem C76_parameters_stay_refuted : exists net c k w,
  In w (messages 10 plain_client net c k) /\ ~ goes_to (endpoint_of c k) w /\
  endpoint_of c k = "https://s.example/oauth2/token" /\ url_string (ms_url w) = "http://other.example/x" /\
  carries_parameters w k /\ vget (parameters k) "password" = "p1".
Proof. exact c76_refuted. Qed.
Print Assumptions C76_parameters_stay_refuted.

(** ... and two redirects make it send the name and secret of the client. *)
Theorem C76_secret_stays_refuted : exists net c k w,
  In w (messages 10 plain_client net c k) /\ ~ goes_to (endpoint_of c k) w /\
  endpoint_of c k = "https://s.example/oauth2/token" /\ url_string (ms_url w) = "https://other.example/2" /\
  carries_secret w k /\ client_of k = ("c1", "s1").
Proof. exact c76_secret_refuted. Qed.
Print Assumptions C76_secret_stays_refuted.

(** It is true as far as the redirects received stay at the server. Missing:
    redirects that lead elsewhere. *)
Theorem C76_same_server_partial : forall n hc net c k,
  (forall l w a u, net (l ++ [w])%list = Some a -> redirects a -> parse_reference (ms_url w) (rp_location a) = Some u ->
     u_scheme u = u_scheme (ms_url w) /\ u_host u = u_host (ms_url w)) ->
  forall w, In w (messages n hc net c k) -> goes_to (endpoint_of c k) w.
Proof. exact c76_within. Qed.
Print Assumptions C76_same_server_partial.

(** References without scheme, host and user stay. *)
Theorem C76_relative_redirect : forall u ref r u',
  url_parse ref = Some r -> u_scheme r = "" -> u_host r = "" -> u_user r = None ->
  parse_reference u ref = Some u' -> u_scheme u' = u_scheme u /\ u_host u' = u_host u.
Proof. exact c76_relative. Qed.
Print Assumptions C76_relative_redirect.

Example C76_case : (forall l w a u, moving (l ++ [w])%list = Some a -> redirects a -> parse_reference (ms_url w) (rp_location a) = Some u ->
     u_scheme u = u_scheme (ms_url w) /\ u_host u = u_host (ms_url w)) /\
  map (fun w => url_string (ms_url w)) (messages 10 plain_client moving case_client_config case_password_call)
    = ["https://s.example/oauth2/token"; "https://s.example/v2/token"].
Proof. exact case_moving. Qed.

(** It is true of a client that is made not to follow redirects. *)
Theorem C76_careful_client : forall n idna net c k,
  (List.length (messages n (careful_http_client idna) net c k) <= 1)%nat /\
  forall w, In w (messages n (careful_http_client idna) net c k) -> asks_for (endpoint_of c k) w.
Proof. exact c76_careful. Qed.
Print Assumptions C76_careful_client.

(** which makes of the redirect what it makes of any other answer. *)
Theorem C76_careful_result : forall n idna net c k w l a,
  messages (S n) (careful_http_client idna) net c k = w :: l -> net [w] = Some a -> redirect_named w a ->
  match k with
  | CallAuthenticate q => snd (authenticate_over (S n) (careful_http_client idna) net c q) = Some (client_authenticate c (fun _ => Some (rp_response a)) q)
  | CallIntrospect q => snd (introspect_over (S n) (careful_http_client idna) net c q) = Some (client_introspect c (fun _ => Some (rp_response a)) q)
  | CallRevoke q => snd (revoke_over (S n) (careful_http_client idna) net c q) = Some (client_revoke c (fun _ => Some (rp_response a)) q)
  end.
Proof. exact c76_careful_result. Qed.
Print Assumptions C76_careful_result.

Example C76_case_careful : exists w a, messages 1 (careful_http_client (fun _ => None)) moving case_client_config case_password_call = [w] /\
  moving [w] = Some a /\ redirects a /\ rp_location a <> "" /\ exists u, parse_reference (ms_url w) (rp_location a) = Some u.
Proof.
  do 2 eexists. split; [vm_compute; reflexivity|]. split; [vm_compute; reflexivity|]. split; [vm_compute; tauto|].
  split; [vm_compute; discriminate|]. eexists. vm_compute. reflexivity.
Qed.

(** In every case: the first message, *)
Theorem C76_first_message : forall n hc net c k w l,
  messages n hc net c k = w :: l ->
  asks_for (endpoint_of c k) w /\ ms_method w = "POST" /\ carries_parameters w k /\ (has_secret k -> carries_secret w k).
Proof. exact c76_first. Qed.
Print Assumptions C76_first_message.

(** no other without a redirect, *)
Theorem C76_no_redirect_one_message : forall n hc net c k,
  (forall l a, net l = Some a -> ~ redirects a) ->
  (List.length (messages n hc net c k) <= 1)%nat.
Proof. exact c76_no_redirect. Qed.
Print Assumptions C76_no_redirect_one_message.

(** every other one where the last answer leads, with the parameters after 307
    and 308 and without any after 301, 302 and 303, *)
Theorem C76_next_message : forall n hc net c k i w w',
  messages n hc net c k !! i = Some w -> messages n hc net c k !! S i = Some w' ->
  exists a, net (take (S i) (messages n hc net c k)) = Some a /\ redirects a /\
    parse_reference (ms_url w) (rp_location a) = Some (ms_url w') /\
    (repeats a -> ms_method w' = ms_method w /\ carries_parameters w' k) /\
    (~ repeats a -> ms_method w' = "GET" /\ ms_body w' = None).
Proof. exact c76_step. Qed.
Print Assumptions C76_next_message.

(** (the URI named by an answer is the one of RFC 3986) *)
Theorem C76_reference : forall u ref r u', url_parse ref = Some r -> parse_reference u ref = Some u' ->
  (u_scheme r <> "" \/ u_host r <> "" \/ u_user r <> None ->
   u_scheme u' = (if decide (u_scheme r = "") then u_scheme u else u_scheme r) /\ u_host u' = u_host r /\ u_user u' = u_user r /\
   u_rawquery u' = u_rawquery r /\
   forall new, path_leads (escaped_path r) "" new -> escaped_path u' = new) /\
  (u_scheme r = "" -> u_host r = "" -> u_user r = None ->
   u_scheme u' = u_scheme u /\ u_host u' = u_host u /\ u_user u' = u_user u /\
   u_rawquery u' = (if decide (u_path r = "" /\ u_rawquery r = "") then u_rawquery u else u_rawquery r) /\
   forall new, path_leads (escaped_path u) (escaped_path r) new -> escaped_path u' = new).
Proof. exact c76_reference. Qed.
Print Assumptions C76_reference.

Example C76_case_reference : exists u r u',
  url_parse "https://s.example/oauth2/token?a=1" = Some u /\ url_parse "../v2/./x%2Fy" = Some r /\
  u_scheme r = "" /\ u_host r = "" /\ u_user r = None /\ parse_reference u "../v2/./x%2Fy" = Some u' /\
  path_leads (escaped_path u) (escaped_path r) "/v2/x%2Fy" /\ url_string u' = "https://s.example/v2/x%2Fy".
Proof.
  do 3 eexists. do 6 (split; [vm_compute; reflexivity|]). split; [|vm_compute; reflexivity].
  exists ["oauth2"; ".."; "v2"; "."; "x%2Fy"], ["v2"; "x%2Fy"]. split_and!.
  - repeat apply List.Forall_cons; try apply List.Forall_nil; intros H; vm_compute in H; intuition discriminate.
  - apply (merges_relative "/oauth2" "token" "." "./v2/./x%2Fy"); [|discriminate]. intros H; vm_compute in H; intuition discriminate.
  - apply dots_name; [discriminate..|]. apply dots_up; [discriminate|]. apply dots_name; [discriminate..|]. apply dots_here; [discriminate|].
    apply dots_name; [discriminate..|]. apply (dots_end ["x%2Fy"; "v2"]).
  - reflexivity.
Qed.

(** with the name and secret of the client exactly if the host is the one
    before or below it, *)
Theorem C76_next_secret : forall n hc net c k i w w',
  has_secret k ->
  messages n hc net c k !! i = Some w -> messages n hc net c k !! S i = Some w' ->
  (within_domain (canonical_addr hc (ms_url w)) (canonical_addr hc (ms_url w')) -> carries_secret w' k) /\
  (~ within_domain (canonical_addr hc (ms_url w)) (canonical_addr hc (ms_url w')) -> u_user (ms_url w') = None ->
   header_get (ms_header w') "Authorization" = "").
Proof. exact c76_secret. Qed.
Print Assumptions C76_next_secret.

(** that is, exactly if the port is the same and the name of the host is the same or below it: *)
Theorem C76_secret_host : forall n hc net c k i w w' host port host' port',
  has_secret k ->
  messages n hc net c k !! i = Some w -> messages n hc net c k !! S i = Some w' ->
  leads_to_host (ms_url w) host port -> leads_to_host (ms_url w') host' port' ->
  (same_or_below host port host' port' -> carries_secret w' k) /\
  (~ same_or_below host port host' port' -> u_user (ms_url w') = None -> header_get (ms_header w') "Authorization" = "").
Proof. exact c76_secret_host. Qed.
Print Assumptions C76_secret_host.

Example C76_case_host :
  has_secret case_password_call /\
  (exists w w', messages 10 plain_client moving case_client_config case_password_call !! 0%nat = Some w /\
    messages 10 plain_client moving case_client_config case_password_call !! 1%nat = Some w' /\
    leads_to_host (ms_url w) "s.example" "443" /\ leads_to_host (ms_url w') "s.example" "443" /\
    same_or_below "s.example" "443" "s.example" "443") /\
  (exists w w', messages 10 plain_client forwarding case_client_config case_password_call !! 0%nat = Some w /\
    messages 10 plain_client forwarding case_client_config case_password_call !! 1%nat = Some w' /\
    leads_to_host (ms_url w) "s.example" "443" /\ leads_to_host (ms_url w') "other.example" "80" /\
    u_user (ms_url w') = None /\ header_get (ms_header w') "Authorization" = "") /\
  (forall u, u_scheme u = "https" -> u_host u = "[::1]" -> leads_to_host u "::1" "443").
Proof.
  split; [vm_compute; intuition congruence|]. split; [|split].
  - do 2 eexists. split; [vm_compute; reflexivity|]. split; [vm_compute; reflexivity|].
    split; [apply leads_plain; vm_compute; intuition|]. split; [apply leads_plain; vm_compute; intuition|]. split; [done|by left].
  - do 2 eexists. split; [vm_compute; reflexivity|]. split; [vm_compute; reflexivity|].
    split; [apply leads_plain; vm_compute; intuition|]. split; [apply leads_plain; vm_compute; intuition|]. split; [done|]. vm_compute. reflexivity.
  - intros u Hs Hh. by apply leads_brackets.
Qed.

(** with the address before it, but not the user part of it, and not if that
    was https and this is http, *)
Theorem C76_referer : forall n hc net c k i w w',
  messages n hc net c k !! i = Some w -> messages n hc net c k !! S i = Some w' ->
  header_get (ms_header w') "Referer" =
    (if decide (u_scheme (ms_url w) = "https" /\ u_scheme (ms_url w') = "http") then "" else url_string (without_user (ms_url w))).
Proof. exact c76_referer. Qed.
Print Assumptions C76_referer.

Example C76_case_referer : exists w w', messages 10 plain_client moving case_client_config case_password_call !! 0%nat = Some w /\
  messages 10 plain_client moving case_client_config case_password_call !! 1%nat = Some w' /\
  header_get (ms_header w') "Referer" = "https://s.example/oauth2/token".
Proof. do 2 eexists. split; [vm_compute; reflexivity|]. split; vm_compute; reflexivity. Qed.

(** and at most ten. *)
Theorem C76_at_most_ten : forall n idna net c k,
  (10 <= n)%nat ->
  returns n (default_http_client idna) net c k /\
  (List.length (messages n (default_http_client idna) net c k) <= 10)%nat.
Proof. exact c76_bounded. Qed.
Print Assumptions C76_at_most_ten.

(** A call that succeeds returns what the last answer says. *)
Theorem C76_result : forall n hc net c,
  (forall q l t, authenticate_over n hc net c q = (l, Some (inl t)) ->
     exists a, net l = Some a /\ rs_status (rp_response a) = 200%Z /\ parse_token_response (rp_response a) (cc_response_limit c) = Some t) /\
  (forall q l x, introspect_over n hc net c q = (l, Some (inl x)) ->
     exists a, net l = Some a /\ rs_status (rp_response a) = 200%Z /\ parse_introspection_response (rp_response a) (cc_response_limit c) = Some x) /\
  (forall q l, revoke_over n hc net c q = (l, Some None) -> exists a, net l = Some a /\ rs_status (rp_response a) = 200%Z).
Proof. exact c76_result. Qed.
Print Assumptions C76_result.

(** C77. A call to the server of this package is one message, it arrives as
    the request that was built, and the result is the one of C55, whatever
    the client does with redirects. *)
Theorem C77_authenticate : forall n hc net ev s c q,
  sendable (cc_base_uri c +:+ cc_token_endpoint c) ->
  leads_to (cc_base_uri c +:+ cc_token_endpoint c) "token" -> has_secret (CallAuthenticate q) -> first_answered net ev s ->
  exists w r, asks_for (cc_base_uri c +:+ cc_token_endpoint c) w /\ arrives w = Some r /\
    build_token_request (cc_base_uri c +:+ cc_token_endpoint c) q = Some r /\
    authenticate_over n hc net c q = ([w], Some (client_authenticate c (connected ev s) q)).
Proof. exact c77_authenticate. Qed.
Print Assumptions C77_authenticate.

Theorem C77_introspect : forall n hc net ev s c q,
  sendable (cc_base_uri c +:+ cc_introspection_endpoint c) ->
  leads_to (cc_base_uri c +:+ cc_introspection_endpoint c) "introspect" -> has_secret (CallIntrospect q) -> first_answered net ev s ->
  exists w r, asks_for (cc_base_uri c +:+ cc_introspection_endpoint c) w /\ arrives w = Some r /\
    build_introspection_request (cc_base_uri c +:+ cc_introspection_endpoint c) q = Some r /\
    introspect_over n hc net c q = ([w], Some (client_introspect c (connected ev s) q)).
Proof. exact c77_introspect. Qed.
Print Assumptions C77_introspect.

Theorem C77_revoke : forall n hc net ev s c q,
  sendable (cc_base_uri c +:+ cc_revocation_endpoint c) ->
  leads_to (cc_base_uri c +:+ cc_revocation_endpoint c) "revoke" -> has_secret (CallRevoke q) -> first_answered net ev s ->
  exists w r, asks_for (cc_base_uri c +:+ cc_revocation_endpoint c) w /\ arrives w = Some r /\
    build_revocation_request (cc_base_uri c +:+ cc_revocation_endpoint c) q = Some r /\
    revoke_over n hc net c q = ([w], Some (client_revoke c (connected ev s) q)).
Proof. exact c77_revoke. Qed.
Print Assumptions C77_revoke.

(** Without name and secret of a client, the user part of the URI is used. *)
Theorem C77_user_of_uri : forall n hc net c k w l u,
  ~ has_secret k -> url_parse (endpoint_of c k) = Some u ->
  messages n hc net c k = w :: l ->
  header_get (ms_header w) "Authorization" =
    match u_user u with Some ui => basic_auth_header (ui_name ui) (default "" (ui_password ui)) | None => "" end.
Proof. exact c77_url_user. Qed.
Print Assumptions C77_user_of_uri.

(** With a blank in the query of the endpoint, no call gets through. *)
Theorem C77_blank_in_query : forall n hc net ev s c q u,
  url_parse (cc_base_uri c +:+ cc_token_endpoint c) = Some u ->
  In (u_scheme u) ["http"; "https"] -> remove_empty_port (u_host u) <> "" -> ~ without " " (u_rawquery u) ->
  first_answered net ev s ->
  exists w, authenticate_over n hc net c q = ([w], Some (inr GOther)).
Proof. exact c77_blank. Qed.
Print Assumptions C77_blank_in_query.

Example C77_case : sendable "https://s.example/oauth2/token" /\ leads_to "https://s.example/oauth2/token" "token" /\
  has_secret case_password_call /\ first_answered case_network (case_env 1000 (rand1 +:+ rand2)) case_server /\
  exists w t, authenticate_over 3 plain_client case_network case_client_config case_token_query = ([w], Some (inl t)) /\
    url_string (ms_url w) = "https://s.example/oauth2/token" /\ tr_scope t = Some ["read"].
Proof.
  split; [exact case_sendable|]. split; [exact (case_leads "token" (or_introl eq_refl))|]. split; [discriminate|]. split; [exact case_first_answered|].
  do 2 eexists. split; [vm_compute; reflexivity|]. split; vm_compute; reflexivity.
Qed.
Example C77_case_blank : exists u, url_parse (cc_base_uri blank_client_config +:+ cc_token_endpoint blank_client_config) = Some u /\
  u_rawquery u = "tenant=a b".
Proof. eexists. split; vm_compute; reflexivity. Qed.
