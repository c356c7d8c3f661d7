(** Proofs about references in the Location of a redirect. *)
From Verif.Model Require Import HttpClient.
From Verif.Spec Require Import ScopeSpec WireSpec TransportSpec.
From Verif.Proof Require Import StrFacts UrlFacts UrlParse WireFacts Redirect RequestParse TransportProofs.

#[local] Open Scope string_scope.

(** ** Paths *)
Lemma path_of_cons x l : path_of (x :: l) = String "/" (x +:+ path_of l).
Proof. unfold path_of. cbn [map]. destruct l; cbn; [by rewrite app_nil_r_s|done]. Qed.
Lemma path_of_app l l' : path_of (l ++ l') = path_of l +:+ path_of l'.
Proof. induction l as [|x l IH]; [done|]. cbn [app]. rewrite !path_of_cons, IH. by rewrite app_cons_s, app_assoc_s. Qed.
Lemma split_path l : Forall (without "/") l -> split "/" (path_of l) = "" :: l.
Proof.
  induction 1 as [|x l Hx Hl IH]; [done|]. apply without_contains in Hx. rewrite path_of_cons.
  change (String "/" ?t) with ("" +:+ String "/" t). rewrite split_app by done. f_equal. destruct l as [|y l].
  - change (path_of []) with "". rewrite app_nil_r_s. by apply split_not_in.
  - rewrite path_of_cons in IH |- *. rewrite split_app by done. f_equal.
    change (String "/" (y +:+ path_of l)) with ("" +:+ String "/" (y +:+ path_of l)) in IH. rewrite split_app in IH by done. by injection IH.
Qed.
Lemma not_dots {A} (u v : A) x : x <> "." -> x <> ".." -> match x with "." | ".." => u | _ => v end = v.
Proof.
  intros H1 H2. destruct x as [|a x]; [done|]. destruct (Ascii.eqb_spec a ".") as [->|Ha].
  - destruct x as [|b x]; [done|]. destruct (Ascii.eqb_spec b ".") as [->|Hb]; [by destruct x|].
    destruct b as [[] [] [] [] [] [] [] []]; (reflexivity || by exfalso).
  - destruct a as [[] [] [] [] [] [] [] []]; (reflexivity || by exfalso).
Qed.
(** [dst] of the loop. *)
Lemma elems_resolve done rest res : without_dots done rest res -> Forall (without "/") done -> Forall (without "/") rest ->
  resolve_elems false (path_of (rev done)) rest +:+ (match List.last rest "" with "." | ".." => "/" | _ => "" end) = path_of res.
Proof.
  intros H. induction H as [l|l|x l|l rest res Hne H IH|x l rest res Hne H IH|x l rest res Hn1 Hn2 H IH]; intros Hd Hr.
  - cbn. by rewrite app_nil_r_s.
  - cbn. by rewrite path_of_app.
  - inversion Hd as [|? ? Hx Hl]; subst. cbn -[path_of]. rewrite path_of_app, path_of_cons. change (path_of []) with "". rewrite app_nil_r_s.
    apply without_contains in Hx. rewrite (proj2 (last_cut_some "/" _ (path_of (rev l)) x)) by done. by rewrite path_of_app.
  - inversion Hr; subst. cbn [resolve_elems]. change (seqb "." ".") with true. cbv iota.
    replace (List.last ("." :: rest) "") with (List.last rest "") by (by destruct rest). by apply IH.
  - inversion Hr; subst. inversion Hd as [|? ? Hx Hl]; subst. cbn [resolve_elems]. change (seqb ".." ".") with false. change (seqb ".." "..") with true. cbv iota.
    cbn [rev]. rewrite path_of_app, path_of_cons. change (path_of []) with "". rewrite app_nil_r_s.
    apply without_contains in Hx. rewrite (proj2 (last_cut_some "/" _ (path_of (rev l)) x)) by done.
    replace (List.last (".." :: rest) "") with (List.last rest "") by (by destruct rest). by apply IH.
  - inversion Hr; subst. cbn [resolve_elems]. rewrite (proj2 (seqb_false _ _) Hn1), (proj2 (seqb_false _ _) Hn2).
    rewrite <- IH; [|by constructor|done]. cbn [rev]. rewrite path_of_app, path_of_cons. change (path_of []) with "". rewrite app_nil_r_s.
    f_equal. destruct rest; [|done]. by apply not_dots.
Qed.
Lemma dots_some l rest res : without_dots l rest res -> rest <> [] -> res <> [].
Proof.
  induction 1 as [l|l|x l|l rest res Hne H IH|x l rest res Hne H IH|x l rest res Hn1 Hn2 H IH]; intros Hr; try done.
  - by destruct (rev l).
  - by destruct (rev l).
  - by apply IH.
  - by apply IH.
  - destruct rest as [|y rest]; [|by apply IH]. inversion H; subst. cbn. by destruct (rev l).
Qed.
Lemma resolve_merged full segments res : Forall (without "/") segments -> full = path_of segments -> without_dots [] segments res ->
  (if seqb full "" then ""
   else let elems := split "/" full in let dst := resolve_elems true "" elems in
     let dst' := match List.last elems "" with "." | ".." => dst +:+ "/" | _ => dst end in
     "/" +:+ match strip_prefix "/" dst' with Some d => d | None => dst' end) = path_of res.
Proof.
  intros Hs -> Hd. destruct segments as [|x segments]; [inversion Hd; subst; done|].
  rewrite path_of_cons. change (seqb (String "/" _) "") with false. cbv iota zeta. rewrite <- path_of_cons, split_path by done.
  pose proof (elems_resolve [] (x :: segments) res Hd (List.Forall_nil _) Hs) as He. cbn [rev] in He. change (path_of []) with "" in He.
  change (resolve_elems true "" ("" :: x :: segments)) with (resolve_elems false "" (x :: segments)).
  change (List.last ("" :: x :: segments) "") with (List.last (x :: segments) "").
  set (dst := resolve_elems false "" (x :: segments)) in *. set (y := List.last (x :: segments) "") in *.
  assert (Hy : match y with "." | ".." => dst +:+ "/" | _ => dst end = path_of res).
  { rewrite <- He. destruct (decide (y = ".")) as [->|H1]; [done|]. destruct (decide (y = "..")) as [->|H2]; [done|].
    rewrite !(not_dots _ _ y H1 H2). by rewrite app_nil_r_s. }
  rewrite Hy. assert (Hne : res <> []). { by apply (dots_some _ _ _ Hd). }
  destruct res as [|z res]; [done|]. rewrite path_of_cons. rewrite (proj2 (strip_prefix_some "/" _ _)) by reflexivity. done.
Qed.


Lemma resolve_leads old ref new : path_leads old ref new -> resolve_path old ref = new.
Proof.
  intros (segments & res & Hs & Hm & Hd & ->). unfold resolve_path. cbv zeta.
  apply (resolve_merged _ segments); [done| |done]. inversion Hm as [o Ho|o rf Ho Hr Hf|dir file c rf Hfile Hc Ho Hr Hf]; subst; try done.
  - apply without_contains in Hfile. rewrite (proj2 (last_cut_some "/" _ dir file)) by done.
    destruct c as [[] [] [] [] [] [] [] []]; (reflexivity || by exfalso).
Qed.

(** ** Escapes *)
Definition good (p : string) : Prop := valid_encoded EncPath p = true /\ is_some (unescape EncPath p) = true.
Lemma escaped_good u : good (escaped_path u).
Proof.
  unfold escaped_path, escaped_hint.
  assert (He : good (escape EncPath (u_path u))).
  { split; [|by rewrite unescape_escape]. unfold valid_encoded, escape. apply all_bytes_flat_map. apply ascii_forall. vm_compute. reflexivity. }
  destruct (negb _ && valid_encoded EncPath (u_rawpath u)) eqn:E; [|by destruct (seqb (u_path u) "*")].
  apply andb_true_iff in E as [_ E]. destruct (unescape EncPath (u_rawpath u)) as [p|] eqn:Eu; [|by destruct (seqb (u_path u) "*")].
  destruct (seqb p (u_path u)); [|by destruct (seqb (u_path u) "*")]. split; [done|]. by rewrite Eu.
Qed.
Lemma unescape_slash a b : is_some (unescape EncPath (a +:+ String "/" b)) = is_some (unescape EncPath a) && is_some (unescape EncPath b).
Proof.
  assert (H : forall n a, slen a <= n -> is_some (unescape EncPath (a +:+ String "/" b)) = is_some (unescape EncPath a) && is_some (unescape EncPath b)).
  { clear a. induction n as [|n IH]; intros a Ha.
    - destruct a; [|cbn in Ha; lia]. rewrite app_nil_s. change (unescape EncPath (String "/" b)) with (match unescape EncPath b with Some t => Some (String "/" t) | None => None end). by destruct (unescape EncPath b).
    - destruct a as [|c a]; [apply (IH ""); cbn; lia|]. rewrite app_cons_s. cbn [unescape]. destruct (Ascii.eqb c "%") eqn:Ec.
      + destruct a as [|h1 [|h2 a]].
        * rewrite app_nil_s. destruct b as [|h2 b]; reflexivity.
        * rewrite app_cons_s, app_nil_s. destruct (unhex h1); reflexivity.
        * rewrite !app_cons_s. destruct (unhex h1) as [x|]; [|done]. destruct (unhex h2) as [y|]; [|done]. cbn [mode_eqb andb negb].
          cbn in Ha. specialize (IH a). destruct (unescape EncPath (a +:+ String "/" b)), (unescape EncPath a); cbn in *; apply IH; lia.
      + cbn in Ha. specialize (IH a ltac:(lia)). cbn [mode_eqb andb orb].
        destruct (Ascii.eqb c "+"), (unescape EncPath (a +:+ String "/" b)), (unescape EncPath a); exact IH. }
  apply (H (slen a)). lia.
Qed.
Lemma good_slash a b : good (a +:+ String "/" b) <-> good a /\ good b.
Proof.
  unfold good, valid_encoded. rewrite all_bytes_app, unescape_slash. cbn [all_bytes].
  rewrite !andb_true_iff. tauto.
Qed.
Lemma good_path l : good (path_of l) <-> Forall good l.
Proof.
  induction l as [|x l IH]; [split; [constructor|]; split; reflexivity|]. rewrite path_of_cons, List.Forall_cons_iff, <- IH.
  change (String "/" ?t) with ("" +:+ String "/" t). rewrite good_slash. split.
  - intros [_ H]. destruct l as [|y l]; [change (path_of []) with "" in *; rewrite app_nil_r_s in H; split; [done|]; split; reflexivity|].
    rewrite path_of_cons in H |- *. apply good_slash in H as [H1 H2]. split; [done|].
    change (String "/" ?t) with ("" +:+ String "/" t). apply good_slash. split; [split; reflexivity|done].
  - intros [H1 H2]. split; [split; reflexivity|].
    destruct l as [|y l]; [change (path_of []) with ""; by rewrite app_nil_r_s|]. rewrite path_of_cons in H2 |- *.
    change (String "/" (y +:+ path_of l)) with ("" +:+ String "/" (y +:+ path_of l)) in H2. apply good_slash in H2 as [_ H2]. by apply good_slash.
Qed.
Lemma dots_good l rest res : without_dots l rest res -> Forall good l -> Forall good rest -> Forall good res.
Proof.
  assert (He : good "") by (split; reflexivity).
  induction 1 as [l|l|x l|l rest res Hne H IH|x l rest res Hne H IH|x l rest res Hn1 Hn2 H IH]; intros Hl Hr.
  - by apply List.Forall_rev.
  - apply List.Forall_app. split; [by apply List.Forall_rev|by repeat constructor].
  - inversion Hl; subst. apply List.Forall_app. split; [by apply List.Forall_rev|by repeat constructor].
  - inversion Hr; subst. by apply IH.
  - inversion Hl; inversion Hr; subst. by apply IH.
  - inversion Hr; subst. apply IH; [by constructor|done].
Qed.
Lemma leads_good old ref new : path_leads old ref new -> good old -> good ref -> good new.
Proof.
  intros (segments & res & Hs & Hm & Hd & ->) Ho Hr. apply good_path. apply (dots_good _ _ _ Hd); [constructor|]. apply good_path.
  inversion Hm as [o|o rf|dir file c rf Hfile Hc]; subst; [congruence..|].
  apply good_slash. by apply good_slash in Ho as [? _].
Qed.
Lemma leads_shape old ref new : path_leads old ref new -> new = "" \/ exists t, new = String "/" t.
Proof. intros (segments & [|x res] & _ & _ & _ & ->); [by left|]. right. rewrite path_of_cons. by eexists. Qed.
Lemma set_path_escaped u p : good p -> (p = "" \/ exists t, p = String "/" t) -> escaped_path (set_path u p) = p.
Proof.
  intros [Hv Hu] Hp. unfold set_path, set_escaped. destruct (unescape EncPath p) as [path|] eqn:E; [|done].
  unfold escaped_path, escaped_hint. cbn [u_rawpath u_path]. destruct (seqb p (escape EncPath path)) eqn:Ee.
  - apply seqb_true in Ee. change (negb (seqb "" "")) with false. cbn [andb]. destruct (seqb path "*") eqn:Es; [|done].
    apply seqb_true in Es as ->. exfalso. rewrite Ee in Hp. destruct Hp as [Hp|[t Hp]]; vm_compute in Hp; discriminate Hp.
  - destruct (seqb p "") eqn:Ep.
    + apply seqb_true in Ep as ->. cbn in E. injection E as <-. by vm_compute in Ee.
    + cbn [negb]. rewrite Hv, E, seqb_refl. done.
Qed.

(** ** References *)
Lemma set_path_rest u p : u_rawquery (set_path u p) = u_rawquery u.
Proof. unfold set_path. by destruct (set_escaped EncPath p) as [[a b]|]. Qed.
Lemma set_path_user u p : u_user (set_path u p) = u_user u.
Proof. unfold set_path. by destruct (set_escaped EncPath p) as [[a b]|]. Qed.
Lemma c76_reference : forall u ref r u', url_parse ref = Some r -> parse_reference u ref = Some u' ->
  (u_scheme r <> "" \/ u_host r <> "" \/ u_user r <> None ->
   u_scheme u' = (if decide (u_scheme r = "") then u_scheme u else u_scheme r) /\ u_host u' = u_host r /\ u_user u' = u_user r /\
   u_rawquery u' = u_rawquery r /\
   forall new, path_leads (escaped_path r) "" new -> escaped_path u' = new) /\
  (u_scheme r = "" -> u_host r = "" -> u_user r = None ->
   u_scheme u' = u_scheme u /\ u_host u' = u_host u /\ u_user u' = u_user u /\
   u_rawquery u' = (if decide (u_path r = "" /\ u_rawquery r = "") then u_rawquery u else u_rawquery r) /\
   forall new, path_leads (escaped_path u) (escaped_path r) new -> escaped_path u' = new).
Proof.
  intros u ref r u' Hr H. unfold parse_reference in H. rewrite Hr in H. injection H as <-. split.
  - intros Ha.
    assert (Hc : negb (seqb (u_scheme r) "") || negb (seqb (u_host r) "") || match u_user r with Some _ => true | None => false end = true).
    { rewrite !orb_true_iff, !negb_true_iff, !seqb_false. destruct (u_user r); [by right|]. tauto. }
    unfold resolve_reference. cbv zeta. rewrite Hc. rewrite set_path_user, set_path_rest.
    match goal with |- context [set_path ?x ?y] => destruct (set_path_server x y) as [-> ->] end. cbn [u_scheme u_host u_rawquery u_user].
    split_and!; try done.
    + destruct (decide _) as [->|Hn]; [done|]. by rewrite (proj2 (seqb_false _ _) Hn).
    + intros new Hl. rewrite (resolve_leads _ _ _ Hl). apply set_path_escaped; [|by apply (leads_shape _ _ _ Hl)].
      apply (leads_good _ _ _ Hl); [apply escaped_good|split; reflexivity].
  - intros Hs Hh Hu. pose proof (url_parse_opaque _ _ Hr Hs) as Ho. unfold resolve_reference. rewrite Hs, Hh, Hu, Ho.
    change (seqb "" "") with true. cbn [negb orb]. cbv zeta. rewrite set_path_user, set_path_rest.
    match goal with |- context [set_path ?x ?y] => destruct (set_path_server x y) as [-> ->] end. cbn [u_scheme u_host u_rawquery u_user].
    split_and!; try done.
    + destruct (decide _) as [[-> ->]|Hn]; [done|]. destruct (seqb (u_path r) "" && seqb (u_rawquery r) "") eqn:E; [|done].
      rewrite andb_true_iff, !seqb_true in E. done.
    + intros new Hl. rewrite (resolve_leads _ _ _ Hl). apply set_path_escaped; [|by apply (leads_shape _ _ _ Hl)].
      apply (leads_good _ _ _ Hl); apply escaped_good.
Qed.

(** ** The answer of a client that does not follow redirects *)
Lemma careful_do n idna net m w a : on_wire m = Some w -> net [w] = Some a -> redirect_named w a ->
  http_do (S n) (careful_http_client idna) net m = ([w], Got a).
Proof.
  intros Hw Ha Hr. unfold http_do. cbn [hops]. rewrite Hw. cbv zeta. cbn [app]. rewrite Ha.
  assert (Hu : ms_url w = ms_url m).
  { unfold on_wire in Hw. destruct (negb _ && negb _); [done|]. destruct (seqb _ ""); [done|].
    destruct (u_user (ms_url m)); [|by injection Hw as <-]. destruct (seqb _ ""); by injection Hw as <-. }
  destruct (redirect_behavior (ms_method m) a) as [[method b]|] eqn:E; [|done].
  assert (Hred : redirects a).
  { unfold redirect_behavior in E. unfold redirects. cbn [In].
    destruct (Z.eqb_spec (rs_status (rp_response a)) 301) as [<-|]; [tauto|]. destruct (Z.eqb_spec (rs_status (rp_response a)) 302) as [<-|]; [tauto|].
    destruct (Z.eqb_spec (rs_status (rp_response a)) 303) as [<-|]; [tauto|]. cbn [orb] in E.
    destruct (Z.eqb_spec (rs_status (rp_response a)) 307) as [<-|]; [tauto|]. destruct (Z.eqb_spec (rs_status (rp_response a)) 308) as [<-|]; [tauto|done]. }
  destruct (Hr Hred) as [Hl [u Hp]]. rewrite (proj2 (seqb_false _ _) Hl). rewrite Hu in Hp. rewrite Hp. done.
Qed.

Lemma careful_messages n idna net c k w l : messages n (careful_http_client idna) net c k = w :: l ->
  exists m, on_wire m = Some w /\
    post_message (endpoint_of c k) (parameters k) (fst (client_of k)) (snd (client_of k)) = Some m.
Proof.
  destruct k as [q|q|q]; cbn [messages endpoint_of parameters client_of fst snd];
    unfold authenticate_over, introspect_over, revoke_over;
    (destruct (post_message _ _ _ _) as [m|]; [|done]); unfold http_do; destruct n; cbn [hops];
    (destruct (on_wire m) as [w'|] eqn:E; [|done]); cbv zeta; cbn [app];
    (destruct (net [w']) as [a|]; [|cbn [fst]; intros [= -> _]; by exists m]);
    (destruct (redirect_behavior _ a) as [[method b]|]; [|cbn [fst]; intros [= -> _]; by exists m]);
    try (cbn [fst]; intros [= -> _]; by exists m);
    (destruct (seqb (rp_location a) ""); [cbn [fst]; intros [= -> _]; by exists m|]);
    (destruct (parse_reference _ _); cbn; intros [= -> _]; by exists m).
Qed.
Lemma post_build uri vals id secret m : post_message uri vals id secret = Some m -> is_Some (build_post uri vals id secret).
Proof. unfold post_message, new_post, build_post. destruct (url_parse uri); [|done]. intros _. by eexists. Qed.
Lemma c76_careful_result : forall n idna net c k w l a,
  messages (S n) (careful_http_client idna) net c k = w :: l -> net [w] = Some a -> redirect_named w a ->
  match k with
  | CallAuthenticate q => snd (authenticate_over (S n) (careful_http_client idna) net c q) = Some (client_authenticate c (fun _ => Some (rp_response a)) q)
  | CallIntrospect q => snd (introspect_over (S n) (careful_http_client idna) net c q) = Some (client_introspect c (fun _ => Some (rp_response a)) q)
  | CallRevoke q => snd (revoke_over (S n) (careful_http_client idna) net c q) = Some (client_revoke c (fun _ => Some (rp_response a)) q)
  end.
Proof.
  intros n idna net c k w l a Hm Ha Hr. apply careful_messages in Hm as (m & Hw & Hp).
  destruct (post_build _ _ _ _ _ Hp) as [r Hb]. pose proof (careful_do n idna net m w a Hw Ha Hr) as Hd.
  destruct k as [q|q|q]; cbn [endpoint_of parameters client_of fst snd] in *;
    unfold authenticate_over, introspect_over, revoke_over, client_authenticate, client_introspect, client_revoke,
      build_token_request, build_introspection_request, build_revocation_request, build_lookup_request; rewrite Hp, Hb, Hd; reflexivity.
Qed.
