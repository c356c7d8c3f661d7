(** Facts about Model/HttpClient.v. *)
From Verif.Model Require Import HttpClient.
From Verif.Spec Require Import ScopeSpec WireSpec RequestSpec ServerSpec ClientSpec TransportSpec.
From Verif.Proof Require Import StrFacts UrlFacts UrlParse Redirect RequestProofs RequestParse ServerFacts.

#[local] Open Scope string_scope.
#[local] Opaque basic_auth_header encode_values canonical_addr url_string url_parse.

(** ** The chain of requests *)

Inductive chain (hc : http_client) (net : network) (first : message) : list message -> list message -> message -> list message -> Prop :=
| chain_nil via wire m : chain hc net first via wire m []
| chain_one via wire m w : on_wire m = Some w -> chain hc net first via wire m [w]
| chain_more via wire m w a method b u l :
    on_wire m = Some w -> net (wire ++ [w])%list = Some a ->
    redirect_behavior (ms_method m) a = Some (method, b) -> rp_location a <> "" ->
    parse_reference (ms_url m) (rp_location a) = Some u ->
    hc_check hc (next_message hc first m method b (rp_location a) u) (via ++ [m])%list = Follow ->
    chain hc net first (via ++ [m])%list (wire ++ [w])%list (next_message hc first m method b (rp_location a) u) l ->
    chain hc net first via wire m (w :: l).

Lemma hops_chain hc net first fuel : forall via wire m, exists l,
  fst (hops fuel hc net first via wire m) = (wire ++ l)%list /\ chain hc net first via wire m l.
Proof.
  induction fuel as [|fuel IH]; intros via wire m; cbn [hops];
    (destruct (on_wire m) as [w|] eqn:Ew; [|exists []; split; [by rewrite app_nil_r|constructor]]);
    cbv zeta;
    (destruct (net (wire ++ [w])%list) as [a|] eqn:En; [|exists [w]; split; [done|by constructor]]);
    (destruct (redirect_behavior (ms_method m) a) as [[method b]|] eqn:Er; [|exists [w]; split; [done|by constructor]]);
    [exists [w]; split; [done|by constructor]|].
  destruct (seqb (rp_location a) "") eqn:El; [exists [w]; split; [done|by constructor]|].
  destruct (parse_reference (ms_url m) (rp_location a)) as [u|] eqn:Eu; [|exists [w]; split; [done|by constructor]].
  destruct (hc_check hc _ (via ++ [m])) eqn:Ec; [|exists [w]; split; [done|by constructor]..].
  destruct (IH (via ++ [m])%list (wire ++ [w])%list (next_message hc first m method b (rp_location a) u)) as (l & Hl & Hc).
  exists (w :: l). rewrite Hl, <- app_assoc. split; [done|]. eapply chain_more; try eassumption. by apply seqb_false.
Qed.

(** The messages of a call are the ones of its request. *)
Definition message_of (c : client_config) (k : call) : option message :=
  post_message (endpoint_of c k) (parameters k) (fst (client_of k)) (snd (client_of k)).
Lemma messages_hops n hc net c k : messages n hc net c k =
  match message_of c k with Some m => fst (http_do n hc net m) | None => [] end.
Proof.
  unfold message_of. destruct k as [q|q|q]; cbn [messages endpoint_of parameters client_of fst snd];
    unfold authenticate_over, introspect_over, revoke_over;
    (destruct (post_message _ _ _ _) as [m|]; [|done]); by destruct (http_do n hc net m).
Qed.
Lemma returns_hops n hc net c k : returns n hc net c k <->
  match message_of c k with Some m => snd (http_do n hc net m) <> Running | None => True end.
Proof.
  unfold message_of. destruct k as [q|q|q]; cbn [returns endpoint_of parameters client_of fst snd];
    unfold authenticate_over, introspect_over, revoke_over;
    (destruct (post_message _ _ _ _) as [m|]; [|done]); destruct (http_do n hc net m) as [l []]; cbn [snd]; split; congruence.
Qed.
Lemma messages_chain n hc net c k : messages n hc net c k = [] \/
  exists m, message_of c k = Some m /\ chain hc net m [] [] m (messages n hc net c k).
Proof.
  rewrite messages_hops. destruct (message_of c k) as [m|]; [|by left]. right. exists m. split; [done|].
  destruct (hops_chain hc net m n [] [] m) as (l & Hl & Hc). unfold http_do. rewrite Hl. exact Hc.
Qed.

(** ** One message *)

Lemma canonical_names : canonical_key "Authorization" = "Authorization" /\ canonical_key "Content-Type" = "Content-Type".
Proof. split; vm_compute; reflexivity. Qed.
Lemma get_set_same (h : headers) k v : header_get (<[k := [v]]> h) k = v.
Proof. unfold header_get, headers in *. by rewrite lookup_insert. Qed.
Lemma get_set_other (h : headers) k k' l : k <> k' -> header_get (<[k := l]> h) k' = header_get h k'.
Proof. intros H. unfold header_get, headers in *. by rewrite lookup_insert_ne. Qed.

Lemma on_wire_same m w : on_wire m = Some w ->
  ms_method w = ms_method m /\ ms_url w = ms_url m /\ ms_host w = ms_host m /\ ms_body w = ms_body m /\
  header_get (ms_header w) "Content-Type" = header_get (ms_header m) "Content-Type" /\
  (header_get (ms_header m) "Authorization" <> "" ->
   header_get (ms_header w) "Authorization" = header_get (ms_header m) "Authorization") /\
  (u_user (ms_url m) = None -> ms_header w = ms_header m).
Proof.
  unfold on_wire. destruct (_ && _); [done|]. destruct (seqb (u_host (ms_url m)) ""); [done|].
  destruct (u_user (ms_url m)) as [ui|]; [|intros [= <-]; done].
  destruct (seqb (header_get (ms_header m) "Authorization") "") eqn:Ea; intros [= <-]; [|done].
  unfold set_header. rewrite (proj1 canonical_names). cbn [ms_method ms_url ms_host ms_body ms_header].
  rewrite get_set_other by done. apply seqb_true in Ea. done.
Qed.
Lemma on_wire_scheme m w : on_wire m = Some w -> In (u_scheme (ms_url m)) ["http"; "https"] /\ u_host (ms_url m) <> "".
Proof.
  unfold on_wire. destruct (negb _ && negb _) eqn:E; [done|]. destruct (seqb (u_host (ms_url m)) "") eqn:Eh; [done|]. intros _.
  split; [|by apply seqb_false]. apply andb_false_iff in E as [E|E]; apply negb_false_iff, seqb_true in E; rewrite E; cbn; tauto.
Qed.
Lemma on_wire_some m : In (u_scheme (ms_url m)) ["http"; "https"] -> u_host (ms_url m) <> "" -> exists w, on_wire m = Some w.
Proof.
  intros Hs Hh. unfold on_wire. apply seqb_false in Hh. rewrite Hh.
  assert (negb (seqb (u_scheme (ms_url m)) "http") && negb (seqb (u_scheme (ms_url m)) "https") = false) as ->.
  { destruct Hs as [<-|[<-|[]]]; reflexivity. }
  destruct (u_user (ms_url m)); [destruct (seqb (header_get (ms_header m) "Authorization") "")|]; eexists; reflexivity.
Qed.

Lemma remove_empty_port_host h : h = remove_empty_port h \/ h = remove_empty_port h +:+ ":".
Proof.
  unfold remove_empty_port. destruct (last_cut ":" h) as [[a b]|] eqn:E; [|by left].
  destruct b; [|by left]. right. by apply last_cut_some in E as [-> _].
Qed.

Lemma post_message_spec uri vals id secret m : post_message uri vals id secret = Some m ->
  exists u, url_parse uri = Some u /\ ms_method m = "POST" /\ ms_body m = Some (encode_values vals) /\
    u_scheme (ms_url m) = u_scheme u /\ u_opaque (ms_url m) = u_opaque u /\ u_user (ms_url m) = u_user u /\
    u_host (ms_url m) = remove_empty_port (u_host u) /\ u_path (ms_url m) = u_path u /\
    u_rawpath (ms_url m) = u_rawpath u /\ u_forcequery (ms_url m) = u_forcequery u /\
    u_rawquery (ms_url m) = u_rawquery u /\
    header_get (ms_header m) "Content-Type" = form_ctype /\
    header_get (ms_header m) "Authorization" =
      (if negb (seqb id "") || negb (seqb secret "") then basic_auth_header id secret else "") /\
    (forall k, k <> "Content-Type" -> k <> "Authorization" -> header_get (ms_header m) k = "").
Proof.
  unfold post_message, new_post. destruct (url_parse uri) as [u|]; [|done]. cbv zeta.
  destruct canonical_names as [E1 E2].
  destruct (negb (seqb id "") || negb (seqb secret "")) eqn:Ei; intros [= <-];
    (exists u; split; [done|]);
    unfold set_header; rewrite ?E1, ?E2; cbn [ms_method ms_url ms_host ms_header ms_body u_scheme u_opaque u_user u_host u_path u_rawpath u_forcequery u_rawquery];
    do 10 (split; [reflexivity|]).
  - split; [apply get_set_same|]. split; [rewrite get_set_other by done; apply get_set_same|].
    intros k H1 H2. rewrite !get_set_other by congruence. done.
  - split; [apply get_set_same|]. split; [rewrite get_set_other by done; done|].
    intros k H1 H2. rewrite !get_set_other by congruence. done.
Qed.
Lemma basic_auth_header_nonempty id secret : basic_auth_header id secret <> "".
Proof. with_strategy transparent [basic_auth_header] unfold basic_auth_header. by destruct (std_encode _). Qed.

(** ** Redirects *)

Lemma redirect_behavior_spec method a m b : redirect_behavior method a = Some (m, b) ->
  redirects a /\ (b = true <-> repeats a) /\ (b = true -> m = method) /\
  (b = false -> m = if seqb method "GET" || seqb method "HEAD" then method else "GET").
Proof.
  unfold redirect_behavior, redirects, repeats. cbv zeta. generalize (rs_status (rp_response a)). intros z.
  destruct ((z =? 301) || (z =? 302) || (z =? 303))%Z eqn:E.
  - intros [= <- <-]. rewrite !orb_true_iff, !Z.eqb_eq in E.
    split; [cbn [In]; lia|]. split; [split; [discriminate|cbn [In]; lia]|]. split; [discriminate|]. intros _. reflexivity.
  - destruct ((z =? 307) || (z =? 308))%Z eqn:E'; [|discriminate]. destruct (seqb (rp_location a) ""); [discriminate|]. intros [= <- <-].
    rewrite !orb_true_iff, !Z.eqb_eq in E'. split; [cbn [In]; lia|].
    split; [split; [intros _; cbn [In]; lia|reflexivity]|]. split; [reflexivity|discriminate].
Qed.
Lemma redirect_behavior_none method a : ~ redirects a -> redirect_behavior method a = None.
Proof.
  intros H. destruct (redirect_behavior method a) as [[m b]|] eqn:E; [|done]. by apply redirect_behavior_spec in E as [? _].
Qed.

Lemma next_method hc first m method b loc u : ms_method (next_message hc first m method b loc u) = method.
Proof. reflexivity. Qed.
Lemma next_url hc first m method b loc u : ms_url (next_message hc first m method b loc u) = u.
Proof. reflexivity. Qed.
Lemma next_body hc first m method b loc u :
  ms_body (next_message hc first m method b loc u) = if b then ms_body first else None.
Proof. reflexivity. Qed.
Lemma next_auth hc first m method b loc u :
  header_get (ms_header (next_message hc first m method b loc u)) "Authorization" =
  if is_domain_or_subdomain (canonical_addr hc u) (canonical_addr hc (ms_url m))
  then header_get (ms_header first) "Authorization" else "".
Proof.
  unfold next_message. cbn [ms_header].
  assert (forall h : headers, header_get (if seqb (referer_for_url (ms_url m) u) "" then h
     else <["Referer" := [referer_for_url (ms_url m) u]]> h) "Authorization" = header_get h "Authorization") as ->.
  { intros h. destruct (seqb _ ""); [done|]. by apply get_set_other. }
  assert (Hk : should_copy hc "Authorization" (ms_url m) u = is_domain_or_subdomain (canonical_addr hc u) (canonical_addr hc (ms_url m))) by reflexivity.
  rewrite <- Hk. clear Hk. unfold header_get, headers in *.
  match goal with |- match ?x with _ => _ end = _ => destruct x as [v|] eqn:E end.
  - apply map_filter_lookup_Some in E as [E1 E2]. cbn [fst] in E2. rewrite E2. match goal with |- _ = match ?x with _ => _ end => assert (x = Some v) as -> by exact E1 end. reflexivity.
  - apply map_filter_lookup_None in E as [E|E].
    + destruct (should_copy _ _ _ _); [|reflexivity].
      match goal with |- _ = match ?x with _ => _ end => assert (x = None) as -> by exact E end. reflexivity.
    + destruct (should_copy hc "Authorization" (ms_url m) u) eqn:Es; [|reflexivity].
      match goal with |- _ = match ?x with _ => _ end => destruct x as [v|] eqn:Ev end; [|reflexivity].
      exfalso. exact (E v eq_refl Es).
Qed.

Lemma drop_take_app n s r : drop_str n s = Some r -> exists p, s = p +:+ r.
Proof.
  revert s. induction n as [|n IH]; intros s H; cbn [drop_str] in H.
  - exists "". by injection H as ->.
  - destruct s as [|a s]; [done|]. apply IH in H as [p ->]. exists (String a p). done.
Qed.
Lemma drop_str_app p r : drop_str (slen p) (p +:+ r) = Some r.
Proof. induction p as [|a p IH]; [done|]. exact IH. Qed.
Lemma subdomain_spec sub parent : is_domain_or_subdomain sub parent = true <-> within_domain parent sub.
Proof.
  unfold is_domain_or_subdomain, within_domain. rewrite orb_true_iff. split.
  - intros [H|H]; [left; by apply seqb_true|]. right. apply andb_true_iff in H as [_ H].
    destruct (drop_str _ sub) as [r|] eqn:E; [|done]. apply seqb_true in H as ->. by apply drop_take_app in E as [p ->]; exists p.
  - intros [->|[x ->]]; [left; apply seqb_refl|]. right. apply andb_true_iff.
    rewrite !slen_app. change (slen ".") with 1%nat. split; [apply Nat.ltb_lt; lia|].
    replace (slen x + (1 + slen parent) - slen parent - 1)%nat with (slen x) by lia.
    rewrite drop_str_app. apply seqb_refl.
Qed.
