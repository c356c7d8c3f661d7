(** C76: where the requests of a client go. *)
From Verif.Model Require Import HttpClient.
From Verif.Spec Require Import ScopeSpec WireSpec RequestSpec ServerSpec ClientSpec TransportSpec.
From Verif.Proof Require Import StrFacts UrlFacts UrlParse Redirect RequestProofs RequestParse ServerFacts TransportFacts.

#[local] Open Scope string_scope.
#[local] Opaque basic_auth_header encode_values canonical_addr url_string url_parse.

Lemma chain_head hc net first via wire m w l : chain hc net first via wire m (w :: l) -> on_wire m = Some w.
Proof. inversion 1; done. Qed.

(** ** The first message *)

Lemma message_of_spec c k m : message_of c k = Some m ->
  (forall w, on_wire m = Some w ->
    asks_for (endpoint_of c k) w /\ ms_method w = "POST" /\ carries_parameters w k /\ (has_secret k -> carries_secret w k)) /\
  ms_method m = "POST" /\ ms_body m = Some (encode_values (parameters k)) /\
  (has_secret k -> header_get (ms_header m) "Authorization" = basic_auth_header (fst (client_of k)) (snd (client_of k))).
Proof.
  intros H. apply post_message_spec in H as (u & Hu & H1 & H2 & H3 & H4 & H5 & H6 & H7 & H8 & H9 & H10 & H11 & H12 & _).
  assert (Hsec : has_secret k -> header_get (ms_header m) "Authorization" = basic_auth_header (fst (client_of k)) (snd (client_of k))).
  { intros Hk. rewrite H12. unfold has_secret in Hk. destruct (client_of k) as [i x]. cbn [fst snd] in *.
    destruct (seqb i "") eqn:Ei, (seqb x "") eqn:Ex; cbn [negb orb]; try reflexivity.
    apply seqb_true in Ei, Ex. congruence. }
  split; [|done]. intros w Hw. apply on_wire_same in Hw as (W1 & W2 & W3 & W4 & W5 & W6 & _).
  split; [|split; [congruence|split]].
  - split.
    + exists u. split; [done|]. rewrite W2, H3, H6. split; [done|]. apply remove_empty_port_host.
    + exists u. rewrite W2. done.
  - unfold carries_parameters. congruence.
  - intros Hk. unfold carries_secret. rewrite W6; [by apply Hsec|]. rewrite (Hsec Hk). apply basic_auth_header_nonempty.
Qed.

Lemma c76_first n hc net c k w l : messages n hc net c k = w :: l ->
  asks_for (endpoint_of c k) w /\ ms_method w = "POST" /\ carries_parameters w k /\ (has_secret k -> carries_secret w k).
Proof.
  intros H. destruct (messages_chain n hc net c k) as [E|(m & Hm & Hc)]; [congruence|].
  rewrite H in Hc. apply chain_head in Hc. by apply (message_of_spec _ _ _ Hm).
Qed.

(** ** Further messages *)

Definition follows (hc : http_client) (first : message) (w : message) (a : reply) (w' : message) : Prop :=
  redirects a /\ rp_location a <> "" /\ parse_reference (ms_url w) (rp_location a) = Some (ms_url w') /\
  (repeats a -> ms_method w' = ms_method w /\ ms_body w' = ms_body first) /\
  (~ repeats a -> ms_method w' = "GET" /\ ms_body w' = None) /\
  (within_domain (canonical_addr hc (ms_url w)) (canonical_addr hc (ms_url w')) ->
     header_get (ms_header first) "Authorization" <> "" ->
     header_get (ms_header w') "Authorization" = header_get (ms_header first) "Authorization") /\
  (~ within_domain (canonical_addr hc (ms_url w)) (canonical_addr hc (ms_url w')) -> u_user (ms_url w') = None ->
     header_get (ms_header w') "Authorization" = "").

Lemma chain_step hc net first via wire m l : chain hc net first via wire m l ->
  ms_method m = "POST" \/ ms_method m = "GET" ->
  forall i w w', l !! i = Some w -> l !! S i = Some w' ->
  exists a, net (wire ++ take (S i) l)%list = Some a /\ follows hc first w a w'.
Proof.
  induction 1 as [|via wire m w0 Hw|via wire m w0 a method b u l Hw Hn Hr Hl Hu Hck Hc IH]; intros Hmeth i w w' Hi Hi'.
  - done.
  - destruct i; done.
  - assert (Hmeth' : method = "POST" \/ method = "GET").
    { apply redirect_behavior_spec in Hr as (_ & _ & R1 & R2). destruct b; [rewrite R1 by done; done|].
      rewrite R2 by done. right. destruct Hmeth as [-> | ->]; reflexivity. }
    destruct i as [|i].
    + cbn [lookup list_lookup] in Hi. injection Hi as <-.
      exists a. split; [exact Hn|].
      destruct l as [|w1 l]; [done|]. injection Hi' as ->. pose proof (chain_head _ _ _ _ _ _ _ _ Hc) as Hw'.
      apply redirect_behavior_spec in Hr as (R0 & R3 & R1 & R2).
      apply on_wire_same in Hw as (Hmw & W2 & _). pose proof (on_wire_same _ _ Hw') as (V1 & V2 & V3 & V4 & V5 & V6 & V7).
      rewrite next_url in V2, V7. rewrite next_method in V1. rewrite next_body in V4.
      unfold follows. rewrite W2, V2. split; [done|]. split; [done|]. split; [done|].
      split; [|split; [|split]].
      * intros Hrep. apply R3 in Hrep as ->. rewrite V1, V4, Hmw. split; [by apply R1|done].
      * intros Hrep. destruct b; [exfalso; by apply Hrep, R3|]. rewrite V1, V4. split; [|done].
        rewrite R2 by done. destruct Hmeth as [-> | ->]; reflexivity.
      * intros Hd Hne. rewrite <- subdomain_spec in Hd. rewrite next_auth, Hd in V6. by apply V6.
      * intros Hd Hnu. rewrite <- subdomain_spec in Hd. rewrite V7 by done. rewrite next_auth.
        destruct (is_domain_or_subdomain _ _); done.
    + destruct (IH ltac:(done) i w w' Hi Hi') as (a' & Ha' & Hf).
      exists a'. split; [|exact Hf]. rewrite <- app_assoc in Ha'. exact Ha'.
Qed.

Lemma c76_step n hc net c k i w w' :
  messages n hc net c k !! i = Some w -> messages n hc net c k !! S i = Some w' ->
  exists a, net (take (S i) (messages n hc net c k)) = Some a /\ redirects a /\
    parse_reference (ms_url w) (rp_location a) = Some (ms_url w') /\
    (repeats a -> ms_method w' = ms_method w /\ carries_parameters w' k) /\
    (~ repeats a -> ms_method w' = "GET" /\ ms_body w' = None).
Proof.
  intros Hi Hi'. destruct (messages_chain n hc net c k) as [E|(m & Hm & Hc)]; [rewrite E in Hi; done|].
  destruct (message_of_spec _ _ _ Hm) as (_ & M1 & M2 & _).
  destruct (chain_step _ _ _ _ _ _ _ Hc (or_introl M1) i w w' Hi Hi') as (a & Ha & F1 & F2 & F3 & F4 & F5 & _).
  exists a. split; [exact Ha|]. split; [done|]. split; [done|]. split; [|done].
  intros Hr. destruct (F4 Hr) as [G1 G2]. split; [done|]. unfold carries_parameters. by rewrite G2.
Qed.

Lemma c76_secret n hc net c k i w w' : has_secret k ->
  messages n hc net c k !! i = Some w -> messages n hc net c k !! S i = Some w' ->
  (within_domain (canonical_addr hc (ms_url w)) (canonical_addr hc (ms_url w')) -> carries_secret w' k) /\
  (~ within_domain (canonical_addr hc (ms_url w)) (canonical_addr hc (ms_url w')) -> u_user (ms_url w') = None ->
   header_get (ms_header w') "Authorization" = "").
Proof.
  intros Hk Hi Hi'. destruct (messages_chain n hc net c k) as [E|(m & Hm & Hc)]; [rewrite E in Hi; done|].
  destruct (message_of_spec _ _ _ Hm) as (_ & M1 & M2 & M3). specialize (M3 Hk).
  destruct (chain_step _ _ _ _ _ _ _ Hc (or_introl M1) i w w' Hi Hi') as (a & Ha & _ & _ & _ & _ & _ & F6 & F7).
  split; [|exact F7]. intros Hd. unfold carries_secret. rewrite <- M3. apply F6; [done|].
  rewrite M3. apply basic_auth_header_nonempty.
Qed.

(** ** When everything stays at the configured server *)

Lemma c76_within n hc net c k :
  (forall l w a u, net (l ++ [w])%list = Some a -> redirects a -> parse_reference (ms_url w) (rp_location a) = Some u ->
     u_scheme u = u_scheme (ms_url w) /\ u_host u = u_host (ms_url w)) ->
  forall w, In w (messages n hc net c k) -> goes_to (endpoint_of c k) w.
Proof.
  intros Hnet w Hin. apply elem_of_list_In, elem_of_list_lookup in Hin as [i Hi]. revert w Hi.
  induction i as [|i IH]; intros w Hi.
  - destruct (messages n hc net c k) as [|w0 l] eqn:E; [done|]. injection Hi as ->.
    by apply c76_first in E as [[? _] _].
  - assert (exists w0, messages n hc net c k !! i = Some w0) as [w0 H0].
    { apply lookup_lt_is_Some. apply lookup_lt_Some in Hi. lia. }
    destruct (c76_step n hc net c k i w0 w H0 Hi) as (a & Ha & Hr & Hu & _).
    assert (Ht : take (S i) (messages n hc net c k) = (take i (messages n hc net c k) ++ [w0])%list) by (by apply take_S_r).
    rewrite Ht in Ha. destruct (Hnet _ _ _ _ Ha Hr Hu) as [H1 H2].
    destruct (IH w0 H0) as (u & U1 & U2 & U3). exists u. rewrite H1, H2. done.
Qed.

Lemma c76_no_redirect n hc net c k : (forall l a, net l = Some a -> ~ redirects a) ->
  (List.length (messages n hc net c k) <= 1)%nat.
Proof.
  intros Hnet. destruct (messages n hc net c k) as [|w [|w' l]] eqn:E; cbn [List.length]; [lia..|]. exfalso.
  destruct (c76_step n hc net c k 0 w w') as (a & Ha & Hr & _); [by rewrite E..|]. by apply (Hnet _ _ Ha).
Qed.

Lemma chain_default idna net first via wire m l : chain (default_http_client idna) net first via wire m l ->
  (List.length via <= 9)%nat -> (List.length via + List.length l <= 10)%nat.
Proof.
  induction 1 as [|via wire m w0 Hw|via wire m w0 a method b u l Hw Hn Hr Hl Hu Hck Hc IH]; intros Hv; cbn [List.length].
  - lia.
  - lia.
  - cbn [hc_check default_http_client] in Hck. unfold default_check in Hck.
    destruct (10 <=? List.length (via ++ [m])%list)%nat eqn:E; [done|]. apply Nat.leb_gt in E.
    specialize (IH ltac:(lia)). rewrite app_length in IH. cbn [List.length] in IH. lia.
Qed.
Lemma hops_default idna net first fuel : forall via wire m, (List.length via <= 9)%nat -> (10 <= List.length via + fuel)%nat ->
  snd (hops fuel (default_http_client idna) net first via wire m) <> Running.
Proof.
  induction fuel as [|fuel IH]; intros via wire m Hv Hf; [lia|]. cbn [hops].
  destruct (on_wire m) as [w|]; [|done]. cbv zeta. destruct (net _) as [a|]; [|done].
  destruct (redirect_behavior _ a) as [[method b]|]; [|done].
  destruct (seqb (rp_location a) ""); [done|]. destruct (parse_reference _ _) as [u|]; [|done].
  cbn [hc_check default_http_client]. unfold default_check at 1.
  destruct (10 <=? List.length (via ++ [m])%list)%nat eqn:E; [done|]. apply Nat.leb_gt in E.
  apply IH; [lia|]. rewrite app_length. cbn [List.length]. lia.
Qed.
Lemma c76_bounded n idna net c k : (10 <= n)%nat ->
  returns n (default_http_client idna) net c k /\
  (List.length (messages n (default_http_client idna) net c k) <= 10)%nat.
Proof.
  intros Hn. split.
  - apply returns_hops. destruct (message_of c k) as [m|]; [|done]. apply hops_default; cbn [List.length]; lia.
  - destruct (messages_chain n (default_http_client idna) net c k) as [E|(m & Hm & Hc)]; [rewrite E; cbn; lia|].
    apply chain_default in Hc; cbn [List.length] in *; lia.
Qed.

Lemma c76_careful n idna net c k :
  (List.length (messages n (careful_http_client idna) net c k) <= 1)%nat /\
  forall w, In w (messages n (careful_http_client idna) net c k) -> asks_for (endpoint_of c k) w.
Proof.
  assert (H : (List.length (messages n (careful_http_client idna) net c k) <= 1)%nat).
  { destruct (messages_chain n (careful_http_client idna) net c k) as [E|(m & Hm & Hc)]; [rewrite E; cbn; lia|].
    inversion Hc; cbn [List.length]; [lia..|]. done. }
  split; [exact H|]. intros w Hin. destruct (messages n (careful_http_client idna) net c k) as [|w0 [|w1 l]] eqn:E; [done| |cbn in H; lia].
  destruct Hin as [->|[]]. by apply c76_first in E as [? _].
Qed.

(** ** References without scheme and host stay at the server *)
Lemma parse_url_opaque b raw u : parse_url b raw = Some u -> u_scheme u = "" -> u_opaque u = "".
Proof.
  intros H Hs. unfold parse_url in H. cbv zeta in H.
  destruct (negb _); [done|]. destruct (seqb raw "" && b); [done|]. destruct (seqb raw "*"); [injection H as <-; done|].
  destruct (getscheme raw) as [[scheme0 rest0]|]; [|done].
  destruct (match cut "?" rest0 with Some (x, "") => (x, true, "") | Some (x, q) => (x, false, q) | None => (rest0, false, "") end)
    as [[rest fq] rq].
  destruct (match strip_prefix "/" rest with Some _ => true | None => false end) eqn:Er; cbn [negb andb] in H.
  - destruct (strip_prefix "//" rest) as [after|].
    + destruct (_ || _).
      * destruct (match cut "/" after with Some (a, b) => (a, String "/" b) | None => (after, "") end) as [x y].
        destruct (parse_authority x) as [[p q]|]; [|done]. destruct (set_escaped EncPath y) as [[p' q']|]; [|done]. by injection H as <-.
      * destruct (set_escaped EncPath rest) as [[p' q']|]; [|done]. by injection H as <-.
    + destruct (set_escaped EncPath rest) as [[p' q']|]; [|done]. by injection H as <-.
  - destruct (seqb (to_lower scheme0) "") eqn:Es; cbn [negb] in H.
    + destruct b; [done|]. destruct (first_segment_colon rest); [done|].
      destruct (strip_prefix "//" rest) as [after|].
      * destruct (_ || _).
        -- destruct (match cut "/" after with Some (a, b) => (a, String "/" b) | None => (after, "") end) as [x y].
           destruct (parse_authority x) as [[p q]|]; [|done]. destruct (set_escaped EncPath y) as [[p' q']|]; [|done]. by injection H as <-.
        -- destruct (set_escaped EncPath rest) as [[p' q']|]; [|done]. by injection H as <-.
      * destruct (set_escaped EncPath rest) as [[p' q']|]; [|done]. by injection H as <-.
    + injection H as <-. cbn [mk_url u_scheme] in Hs. rewrite Hs in Es. done.
Qed.
Lemma url_parse_opaque raw u : url_parse raw = Some u -> u_scheme u = "" -> u_opaque u = "".
Proof.
  with_strategy transparent [url_parse] unfold url_parse.
  destruct (match cut "#" raw with Some (u, f) => (u, f) | None => (raw, "") end) as [v frag].
  destruct (parse_url false v) as [r|] eqn:E; [|done]. destruct (seqb frag "").
  - intros [= <-]. by apply (parse_url_opaque false v).
  - destruct (set_escaped EncFragment frag) as [[f rf]|]; [|done]. intros [= <-].
    cbn [u_scheme u_opaque]. by apply (parse_url_opaque false v).
Qed.
Lemma set_path_server u p : u_scheme (set_path u p) = u_scheme u /\ u_host (set_path u p) = u_host u.
Proof. unfold set_path. by destruct (set_escaped EncPath p) as [[a b]|]. Qed.
Lemma c76_relative u ref r u' : url_parse ref = Some r -> u_scheme r = "" -> u_host r = "" -> u_user r = None ->
  parse_reference u ref = Some u' -> u_scheme u' = u_scheme u /\ u_host u' = u_host u.
Proof.
  intros Hr Hs Hh Hu H. unfold parse_reference in H. rewrite Hr in H. injection H as <-.
  pose proof (url_parse_opaque _ _ Hr Hs) as Ho. unfold resolve_reference. rewrite Hs, Hh, Hu, Ho.
  change (seqb "" "") with true. cbn [negb orb]. cbv zeta.
  match goal with |- context [set_path ?x ?y] => destruct (set_path_server x y) as [-> ->] end. done.
Qed.

(** ** The result is the last answer *)
Lemma hops_got hc net first fuel : forall via wire m l a, hops fuel hc net first via wire m = (l, Got a) -> net l = Some a.
Proof.
  induction fuel as [|fuel IH]; intros via wire m l a; cbn [hops]; cbv zeta;
    (destruct (on_wire m) as [w|]; [|discriminate]);
    (destruct (net (wire ++ [w])%list) as [b|] eqn:En; [|discriminate]);
    (destruct (redirect_behavior (ms_method m) b) as [[method x]|]; [|by intros [= <- <-]]); [discriminate|].
  destruct (seqb (rp_location b) ""); [discriminate|]. destruct (parse_reference _ _) as [u|]; [|discriminate].
  destruct (hc_check hc _ _); [apply IH|by intros [= <- <-]|discriminate].
Qed.
Lemma c76_result n hc net c :
  (forall q l t, authenticate_over n hc net c q = (l, Some (inl t)) ->
     exists a, net l = Some a /\ rs_status (rp_response a) = 200%Z /\ parse_token_response (rp_response a) (cc_response_limit c) = Some t) /\
  (forall q l x, introspect_over n hc net c q = (l, Some (inl x)) ->
     exists a, net l = Some a /\ rs_status (rp_response a) = 200%Z /\ parse_introspection_response (rp_response a) (cc_response_limit c) = Some x) /\
  (forall q l, revoke_over n hc net c q = (l, Some None) -> exists a, net l = Some a /\ rs_status (rp_response a) = 200%Z).
Proof.
  split; [|split].
  - intros q l t. unfold authenticate_over. destruct (post_message _ _ _ _) as [m|]; [|discriminate].
    destruct (http_do n hc net m) as [l' d] eqn:E. destruct d as [a| |]; [|discriminate..].
    apply hops_got in E. destruct (rs_status (rp_response a) =? 200)%Z eqn:Es; cbn [negb]; [|discriminate].
    apply Z.eqb_eq in Es. destruct (parse_token_response _ _) as [r|] eqn:Ep; [|discriminate]. intros [= <- <-]. eauto.
  - intros q l x. unfold introspect_over. destruct (post_message _ _ _ _) as [m|]; [|discriminate].
    destruct (http_do n hc net m) as [l' d] eqn:E. destruct d as [a| |]; [|discriminate..].
    apply hops_got in E. destruct (rs_status (rp_response a) =? 200)%Z eqn:Es; cbn [negb]; [|discriminate].
    apply Z.eqb_eq in Es. destruct (parse_introspection_response _ _) as [r|] eqn:Ep; [|discriminate]. intros [= <- <-]. eauto.
  - intros q l. unfold revoke_over. destruct (post_message _ _ _ _) as [m|]; [|discriminate].
    destruct (http_do n hc net m) as [l' d] eqn:E. destruct d as [a| |]; [|discriminate..].
    apply hops_got in E. destruct (rs_status (rp_response a) =? 200)%Z eqn:Es; cbn [negb]; [|discriminate].
    apply Z.eqb_eq in Es. intros [= <-]. eauto.
Qed.
