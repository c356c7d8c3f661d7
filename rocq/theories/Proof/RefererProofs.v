(** C76: what a redirected request tells about the one before. *)
From Verif.Model Require Import HttpClient.
From Verif.Spec Require Import ScopeSpec WireSpec RequestSpec ServerSpec ClientSpec TransportSpec.
From Verif.Proof Require Import StrFacts UrlFacts UrlParse Redirect RequestProofs RequestParse ServerFacts TransportFacts TransportProofs ArrivalProofs.

#[local] Open Scope string_scope.
#[local] Opaque basic_auth_header encode_values canonical_addr url_parse.

Lemma remove_first_eq old s : remove_first old s =
  match strip_prefix old s with Some rest => rest | None => match s with "" => "" | String a r => String a (remove_first old r) end end.
Proof. by destruct s. Qed.
Lemma remove_first_at ui rest pre : contains "@" ui = false -> contains "@" pre = false ->
  remove_first (ui +:+ "@") (pre +:+ ui +:+ String "@" rest) = pre +:+ rest.
Proof.
  intros Hu. induction pre as [|a pre IH]; intros Hp.
  - rewrite app_nil_s.
    assert (E : ui +:+ String "@" rest = (ui +:+ "@") +:+ rest) by (rewrite app_assoc_s; done).
    rewrite E, remove_first_eq. by rewrite strip_prefix_app.
  - rewrite app_cons_s, remove_first_eq.
    destruct (strip_prefix (ui +:+ "@") (String a (pre +:+ ui +:+ String "@" rest))) as [r|] eqn:E.
    + exfalso. apply strip_prefix_some in E. rewrite app_assoc_s in E.
      assert (C1 : cut "@" (String a (pre +:+ ui +:+ String "@" rest)) = Some (String a pre +:+ ui, rest)).
      { rewrite <- app_cons_s, <- app_assoc_s. apply cut_app. rewrite contains_app, Hp, Hu. done. }
      assert (C2 : cut "@" (ui +:+ "@" +:+ r) = Some (ui, r)) by (by apply cut_app).
      rewrite E in C1. change ("@" +:+ r) with (String "@" r) in C1, C2. rewrite C2 in C1. injection C1 as C1 _.
      apply (f_equal slen) in C1. rewrite slen_app in C1. cbn in C1. lia.
    + cbn [contains] in Hp. rewrite IH; [done|]. by destruct (Ascii.eqb a "@").
Qed.

Lemma userinfo_at ui : contains "@" (userinfo_string ui) = false.
Proof.
  assert (H : forall s, contains "@" (escape EncUserPassword s) = false).
  { intros s. apply escape_never. intros c. apply negb_true_iff. revert c. apply ascii_forall. vm_compute. reflexivity. }
  unfold userinfo_string. destruct (ui_password ui); [|apply H]. by rewrite !contains_app, !H.
Qed.
Lemma referer_without_user u v : In (u_scheme u) ["http"; "https"] -> u_host u <> "" -> u_opaque u = "" ->
  referer_for_url u v = if seqb (u_scheme u) "https" && seqb (u_scheme v) "http" then "" else url_string (without_user u).
Proof.
  intros Hs Hh Ho. unfold referer_for_url. destruct (_ && _); [done|]. destruct u as [sch op us h pa rp fq rq fr rf].
  cbn [u_scheme u_host u_opaque u_user] in *. subst op. destruct us as [ui|]; [|done].
  unfold url_string, url_base, without_user.
  cbn [u_scheme u_opaque u_user u_host u_path u_rawpath u_forcequery u_rawquery u_fragment u_rawfragment].
  unfold escaped_path, escaped_fragment. cbn [u_scheme u_opaque u_user u_host u_path u_rawpath u_forcequery u_rawquery u_fragment u_rawfragment].
  apply seqb_false in Hh. rewrite Hh. rewrite ?seqb_refl. cbn [negb orb].
  assert (Hsch : contains "@" (if seqb sch "" then "" else sch +:+ ":") = false) by (destruct Hs as [<-|[<-|[]]]; reflexivity).
  assert (Hn : seqb sch "" = false) by (destruct Hs as [<-|[<-|[]]]; reflexivity). rewrite Hn in Hsch |- *. cbn [negb orb].
  assert (Hb : forall x, seqb ((sch +:+ ":") +:+ x) "" = false) by (intros x; destruct Hs as [<-|[<-|[]]]; reflexivity).
  rewrite !Hb. cbn [andb].
  generalize (match escaped_hint EncPath rp pa with Some p => p | None => if seqb pa "*" then "*" else escape EncPath pa end). intros path.
  generalize (match path with "" => "" | String c _ => if negb (c =? "/")%char && true then "/" else "" end). intros slash.
  match goal with |- _ = _ +:+ ?y => generalize y end. intros tail.
  rewrite !app_assoc_s, !app_nil_s. change ("@" +:+ escape EncHost h +:+ slash +:+ path +:+ tail) with (String "@" (escape EncHost h +:+ slash +:+ path +:+ tail)).
  rewrite <- (app_assoc_s sch ":"), <- (app_assoc_s (sch +:+ ":") "//").
  rewrite remove_first_at; [by rewrite !app_assoc_s|apply userinfo_at|]. by rewrite contains_app, Hsch.
Qed.

Lemma next_referer hc first m method b loc u : header_get (ms_header first) "Referer" = "" ->
  header_get (ms_header (next_message hc first m method b loc u)) "Referer" = referer_for_url (ms_url m) u.
Proof.
  intros Hf. unfold next_message. cbn [ms_header]. destruct (seqb (referer_for_url (ms_url m) u) "") eqn:E; [|apply get_set_same].
  apply seqb_true in E. rewrite E. unfold header_get, headers in *.
  match goal with |- match ?x with _ => _ end = _ => destruct x as [v|] eqn:Ev end; [|done].
  apply map_filter_lookup_Some in Ev as [Ev _]. cbn in Ev. rewrite Ev in Hf. exact Hf.
Qed.
Lemma on_wire_referer m w : on_wire m = Some w -> header_get (ms_header w) "Referer" = header_get (ms_header m) "Referer".
Proof.
  unfold on_wire. destruct (_ && _); [done|]. destruct (seqb (u_host (ms_url m)) ""); [done|].
  destruct (u_user (ms_url m)) as [ui|]; [|intros [= <-]; done].
  destruct (seqb (header_get (ms_header m) "Authorization") "") eqn:Ea; intros [= <-]; [|done].
  unfold set_header. rewrite (proj1 canonical_names). cbn [ms_header]. by rewrite get_set_other.
Qed.
Lemma reference_opaque u ref u' : parse_reference u ref = Some u' -> u_host u' <> "" -> u_opaque u' = "".
Proof.
  unfold parse_reference. destruct (url_parse ref) as [r|] eqn:E; [|done]. intros [= <-]. unfold resolve_reference. cbv zeta.
  assert (SP : forall x p, u_opaque (set_path x p) = u_opaque x /\ u_host (set_path x p) = u_host x).
  { intros x p. unfold set_path. destruct (set_escaped EncPath p) as [[? ?]|]; done. }
  destruct (_ || _).
  { destruct (SP {| u_scheme := if seqb (u_scheme r) "" then u_scheme u else u_scheme r; u_opaque := u_opaque r; u_user := u_user r; u_host := u_host r;
                u_path := u_path r; u_rawpath := u_rawpath r; u_forcequery := u_forcequery r;
                u_rawquery := u_rawquery r; u_fragment := u_fragment r;
                u_rawfragment := u_rawfragment r |} (resolve_path (escaped_path r) "")) as [-> ->]. cbn. intros Hh. by apply (url_parse_host _ _ E). }
  destruct (seqb (u_opaque r) "") eqn:Eo; cbn [negb]; [|done]. intros _.
  match goal with |- u_opaque (set_path ?x ?p) = _ => destruct (SP x p) as [-> _] end. cbn. by apply seqb_true.
Qed.

Lemma chain_referer hc net first via wire m l : chain hc net first via wire m l ->
  header_get (ms_header first) "Referer" = "" -> (u_host (ms_url m) <> "" -> u_opaque (ms_url m) = "") ->
  forall i w w', l !! i = Some w -> l !! S i = Some w' ->
  header_get (ms_header w') "Referer" =
    (if decide (u_scheme (ms_url w) = "https" /\ u_scheme (ms_url w') = "http") then "" else url_string (without_user (ms_url w))).
Proof.
  induction 1 as [|via wire m w0 Hw|via wire m w0 a method b u l Hw Hn Hr Hl Hu Hck Hc IH]; intros Hf Ho i w w' Hi Hi'.
  - done.
  - destruct i; done.
  - pose proof (on_wire_scheme _ _ Hw) as [Hsch Hhost]. destruct i as [|i].
    + cbn [lookup list_lookup] in Hi. injection Hi as <-. destruct l as [|w1 l]; [done|]. injection Hi' as ->.
      pose proof (chain_head _ _ _ _ _ _ _ _ Hc) as Hw'. rewrite (on_wire_referer _ _ Hw'), next_referer by done.
      apply on_wire_same in Hw as (_ & -> & _). apply on_wire_same in Hw' as (_ & -> & _). rewrite next_url.
      rewrite referer_without_user by (try done; by apply Ho).
      destruct (decide _) as [[E1 E2]|Hd]; [by rewrite E1, E2|].
      destruct (seqb (u_scheme (ms_url m)) "https") eqn:E1, (seqb (u_scheme u) "http") eqn:E2; try done.
      apply seqb_true in E1, E2. by destruct Hd.
    + apply (IH Hf) with (i := i); [|done|done]. rewrite next_url. by apply reference_opaque with (u := ms_url m) (ref := rp_location a).
Qed.

Lemma c76_referer n hc net c k i w w' :
  messages n hc net c k !! i = Some w -> messages n hc net c k !! S i = Some w' ->
  header_get (ms_header w') "Referer" =
    (if decide (u_scheme (ms_url w) = "https" /\ u_scheme (ms_url w') = "http") then "" else url_string (without_user (ms_url w))).
Proof.
  intros Hi Hi'. destruct (messages_chain n hc net c k) as [E|(m & Hm & Hc)]; [rewrite E in Hi; done|].
  pose proof Hm as (u & Hu & H1 & H2 & H3 & H4 & H5 & H6 & H7 & H8 & H9 & H10 & H11 & H12 & H13)%post_message_spec.
  apply (chain_referer _ _ _ _ _ _ _ Hc) with (i := i); [by apply H13| |done|done].
  intros Hh. rewrite H4. apply (url_parse_host _ _ Hu). intros E. rewrite H6, E in Hh. done.
Qed.
