(** C75: the fields of a request are what the client has written. *)
From Verif.Model Require Import Server.
From Verif.Spec Require Import ScopeSpec WireSpec RequestSpec FormSpec.
From Verif.Proof Require Import StrFacts ScopeFacts UrlFacts WireFacts Redirect UrlParse ServerFacts RequestProofs RequestParse MediaProofs.

(** ** Text *)
Lemma unhex_digit c n : unhex c = Some n <-> hex_digit c n.
Proof.
  unfold unhex, hex_digit, is_digit, ord. generalize (N_of_ascii c). intros a.
  destruct ((48 <=? a) && (a <=? 57))%N eqn:E1; [|destruct ((97 <=? a) && (a <=? 102))%N eqn:E2;
    [|destruct ((65 <=? a) && (a <=? 70))%N eqn:E3]].
  all: rewrite ?andb_true_iff, ?andb_false_iff, ?N.leb_le, ?N.leb_gt in *.
  all: split; [intros H; try discriminate H; injection H as <-; lia|intros H; try (f_equal; lia); lia].
Qed.

Lemma stands_unescape s t : stands_for s t <-> query_unescape s = Some t.
Proof.
  split.
  - unfold query_unescape. induction 1 as [|s t H IH|h l x y s t Hh Hl H IH|c s t H1 H2 H IH]; [done| | |].
    + cbn [unescape]. rewrite IH. reflexivity.
    + apply unhex_digit in Hh, Hl. cbn [unescape]. rewrite Hh, Hl, IH. cbn [Ascii.eqb Bool.eqb mode_eqb andb].
      unfold chr. by rewrite (N.mul_comm x 16).
    + cbn [unescape]. apply Ascii.eqb_neq in H1, H2. rewrite H1, H2, IH. reflexivity.
  - revert t. induction s as [s IH] using (induction_ltof1 _ slen). unfold ltof in IH.
    intros t. unfold query_unescape in *. destruct s as [|c r]; [intros H; injection H as <-; constructor|].
    cbn [unescape]. destruct (Ascii.eqb c "%") eqn:E1.
    { apply Ascii.eqb_eq in E1 as ->. destruct r as [|h1 [|h2 r]]; [done|done|].
      destruct (unhex h1) as [x|] eqn:Ex; [|done]. destruct (unhex h2) as [y|] eqn:Ey; [|done].
      cbn [mode_eqb andb]. destruct (unescape EncQuery r) as [u|] eqn:Eu; [|done].
      intros H. injection H as <-. unfold chr. rewrite (N.mul_comm x 16).
      apply stands_byte; [by apply unhex_digit..|]. apply IH; [cbn; lia|exact Eu]. }
    destruct (Ascii.eqb c "+") eqn:E2.
    { apply Ascii.eqb_eq in E2 as ->. destruct (unescape EncQuery r) as [u|] eqn:Eu; [|done].
      intros H. injection H as <-. apply stands_blank. apply IH; [cbn; lia|exact Eu]. }
    cbn [mode_eqb orb andb]. destruct (unescape EncQuery r) as [u|] eqn:Eu; [|done].
    intros H. injection H as <-. apply Ascii.eqb_neq in E1, E2. apply stands_plain; [done..|].
    apply IH; [cbn; lia|exact Eu].
Qed.

(** One piece. *)
Definition field_pairs (piece : string) : option (list (string * string)) :=
  if seqb piece "" then Some []
  else
    let '(k, x) := match cut "=" piece with Some (k, x) => (k, x) | None => (piece, "") end in
    match query_unescape k, query_unescape x with
    | Some k', Some x' => Some [(k', x')]
    | _, _ => None
    end.
Lemma parse_pair_field acc piece : parse_pair acc piece =
  match field_pairs piece with
  | Some l => (add_pairs (fst acc) l, snd acc)
  | None => (fst acc, false)
  end.
Proof.
  unfold parse_pair, field_pairs. destruct (seqb piece ""); [by destruct acc|].
  destruct (match cut "=" piece with Some (k, x) => (k, x) | None => (piece, "") end) as [k x].
  destruct (query_unescape k); [|done]. by destruct (query_unescape x).
Qed.
Lemma field_says_pairs f l : field_says f l <-> field_pairs f = Some l.
Proof.
  split.
  - destruct 1 as [|k key Hk Hw Hs|k v key value Hw H1 H2]; [done| |].
    + unfold field_pairs. apply seqb_false in Hk. rewrite Hk. apply without_contains, cut_none in Hw. rewrite Hw.
      apply stands_unescape in Hs. rewrite Hs. reflexivity.
    + unfold field_pairs. replace (seqb (k +:+ "=" +:+ v) "") with false.
      2:{ symmetry. apply seqb_false. intros H. apply app_eq_nil in H as [_ H]. discriminate. }
      change ("=" +:+ v) with (String "=" v). apply without_contains in Hw. rewrite (cut_app _ _ _ Hw).
      apply stands_unescape in H1, H2. by rewrite H1, H2.
  - unfold field_pairs. destruct (seqb f "") eqn:E0.
    { apply seqb_true in E0 as ->. intros H. injection H as <-. constructor. }
    apply seqb_false in E0. destruct (cut "=" f) as [[k x]|] eqn:Ec.
    + apply cut_some in Ec as [-> Hc]. destruct (query_unescape k) as [k'|] eqn:Ek; [|done].
      destruct (query_unescape x) as [x'|] eqn:Ex; [|done]. intros H. injection H as <-.
      change (String "=" x) with ("=" +:+ x). apply field_pair; [by apply without_contains|by apply stands_unescape..].
    + destruct (query_unescape f) as [k'|] eqn:Ek; [|done]. cbn. intros H. injection H as <-.
      apply field_key; [done|by apply without_contains, cut_none|by apply stands_unescape].
Qed.

Fixpoint pairs_of (ps : list string) : option (list (string * string)) :=
  match ps with
  | [] => Some []
  | p :: ps' => match field_pairs p, pairs_of ps' with
                | Some l, Some l' => Some (l ++ l')
                | _, _ => None
                end
  end.
Lemma add_pairs_app v l l' : add_pairs v (l ++ l') = add_pairs (add_pairs v l) l'.
Proof. unfold add_pairs. by rewrite fold_left_app. Qed.
Lemma fold_failed ps v : snd (fold_left parse_pair ps (v, false)) = false.
Proof.
  revert v. induction ps as [|p ps IH]; intros v; [done|]. cbn [fold_left]. rewrite parse_pair_field.
  destruct (field_pairs p); cbn [fst snd]; apply IH.
Qed.
Lemma fold_pairs ps v : match pairs_of ps with
  | Some l => fold_left parse_pair ps (v, true) = (add_pairs v l, true)
  | None => snd (fold_left parse_pair ps (v, true)) = false
  end.
Proof.
  revert v. induction ps as [|p ps IH]; intros v; [done|]. cbn [pairs_of fold_left]. rewrite parse_pair_field.
  destruct (field_pairs p) as [l|]; cbn [fst snd]; [|apply fold_failed].
  specialize (IH (add_pairs v l)). destruct (pairs_of ps) as [l'|]; [|done]. by rewrite add_pairs_app.
Qed.

Lemma no_sep_without f : no_sep f = true <-> without "&" f /\ without ";" f.
Proof.
  rewrite !without_contains. unfold no_sep. induction f as [|a f IH]; [done|].
  cbn [all_bytes contains]. rewrite andb_true_iff, IH, !orb_false_iff, negb_true_iff. unfold is_sep.
  rewrite orb_false_iff. tauto.
Qed.
Lemma split_sep f c rest : no_sep f = true -> is_sep c = true ->
  split_pairs (f +:+ String c rest) = f :: split_pairs rest.
Proof.
  unfold no_sep. induction f as [|a f IH].
  - intros _ Hc. rewrite app_nil_s. cbn [split_pairs]. by rewrite Hc.
  - cbn [all_bytes]. rewrite andb_true_iff, negb_true_iff. intros [Ha Hf] Hc. rewrite app_cons_s.
    cbn [split_pairs]. by rewrite Ha, IH.
Qed.
Lemma split_cases q : no_sep q = true \/
  exists f c rest, q = f +:+ String c rest /\ no_sep f = true /\ is_sep c = true.
Proof.
  unfold no_sep. induction q as [|a q IH]; [by left|]. destruct (is_sep a) eqn:Ea.
  - right. by exists "", a, q.
  - destruct IH as [IH|(f & c & rest & -> & Hf & Hc)].
    + left. cbn [all_bytes]. by rewrite Ea.
    + right. exists (String a f), c, rest. rewrite app_cons_s. cbn [all_bytes]. rewrite Ea. by repeat split.
Qed.

Lemma says_pairs q l : says q l <-> pairs_of (split_pairs q) = Some l.
Proof.
  split.
  - induction 1 as [f l H1 H2 H3|f sep rest l l' H1 H2 H3 Hsep H IH].
    + rewrite split_pairs_not by (apply no_sep_without; by split). cbn [pairs_of].
      apply field_says_pairs in H3. rewrite H3. by rewrite app_nil_r.
    + assert (exists c, sep = String c "" /\ is_sep c = true) as (c & -> & Hc).
      { destruct Hsep as [->| ->]; eexists; by split. }
      rewrite app_cons_s, app_nil_s. rewrite split_sep; [|apply no_sep_without; by split|done].
      cbn [pairs_of]. apply field_says_pairs in H3. by rewrite H3, IH.
  - revert l. induction q as [q IH] using (induction_ltof1 _ slen). unfold ltof in IH. intros l.
    destruct (split_cases q) as [Hq|(f & c & rest & -> & Hf & Hc)].
    + rewrite (split_pairs_not _ Hq). cbn [pairs_of]. destruct (field_pairs q) as [x|] eqn:E; [|done].
      rewrite app_nil_r. intros H. injection H as <-. apply no_sep_without in Hq as [? ?].
      apply says_last; [done..|by apply field_says_pairs].
    + rewrite (split_sep _ _ _ Hf Hc). cbn [pairs_of]. destruct (field_pairs f) as [x|] eqn:E; [|done].
      destruct (pairs_of (split_pairs rest)) as [y|] eqn:E2; [|done]. intros H. injection H as <-.
      change (String c rest) with (str1 c +:+ rest). apply no_sep_without in Hf as [? ?].
      apply says_more; [done..|by apply field_says_pairs| |].
      { unfold is_sep in Hc. apply orb_true_iff in Hc. rewrite !Ascii.eqb_eq in Hc.
        destruct Hc as [->| ->]; [by left|by right]. }
      apply IH; [|done]. rewrite slen_app. cbn. lia.
Qed.

Lemma says_parse q l : says q l -> parse_query q = (add_pairs ∅ l, true).
Proof.
  intros H. apply says_pairs in H. pose proof (fold_pairs (split_pairs q) ∅) as HH. by rewrite H in HH.
Qed.
Lemma parse_says q v : parse_query q = (v, true) -> exists l, says q l.
Proof.
  intros H. pose proof (fold_pairs (split_pairs q) ∅) as HH. unfold parse_query in H. rewrite H in HH.
  destruct (pairs_of (split_pairs q)) as [l|] eqn:E; [|discriminate HH]. exists l. by apply says_pairs.
Qed.

(** ** C75, the text *)
Lemma c75_one_reading : forall q l l', says q l -> says q l' -> l = l'.
Proof. intros q l l' H1 H2. apply says_pairs in H1, H2. rewrite H1 in H2. by injection H2. Qed.

(** ** Values *)
Lemma vals_written k l : match vals k l with x :: _ => x | [] => "" end = written k l.
Proof.
  unfold vals. induction l as [|[j x] l IH]; [done|]. cbn [List.filter fst written].
  change (String.eqb j k) with (seqb j k). by destruct (seqb j k).
Qed.
Lemma vget_written k l : vget (add_pairs ∅ l) k = written k l.
Proof.
  unfold vget. rewrite add_pairs_lookup, values_empty, <- (vals_written k l).
  by destruct (vals k l).
Qed.
Lemma written_app k l l' : vals k l = [] -> written k (l ++ l') = written k l'.
Proof. intros H. rewrite <- !vals_written, vals_app, H. done. Qed.
Lemma merge_written k l l' :
  vget (merge_values (add_pairs ∅ l) (add_pairs ∅ l')) k = written k (l ++ l').
Proof.
  rewrite <- vals_written, vals_app. unfold vget, merge_values. unfold values.
  rewrite lookup_union_with. pose proof (add_pairs_lookup ∅ l k) as H1. pose proof (add_pairs_lookup ∅ l' k) as H2.
  rewrite values_empty in H1, H2. unfold values in H1, H2. rewrite H1, H2.
  destruct (vals k l), (vals k l'); reflexivity.
Qed.

(** ** Content types *)
Lemma typed_nonempty t ct : typed t ct -> seqb ct "" = false.
Proof.
  rewrite <- content_type_spec. intros H. apply seqb_false. intros ->. vm_compute in H. discriminate H.
Qed.
Lemma form_typed_parse ct : form_typed ct -> parse_media_type ct = (form_ctype, true).
Proof. apply content_type_spec. Qed.
Lemma form_typed_nonempty ct : form_typed ct -> seqb ct "" = false.
Proof. apply typed_nonempty. Qed.
Lemma other_typed_parse ct : other_typed ct ->
  exists t, parse_media_type (if seqb ct "" then "application/octet-stream" else ct) = (t, true) /\ seqb t form_ctype = false.
Proof.
  intros [->|(t & Hne & Ht)].
  - eexists. split; [vm_compute; reflexivity|reflexivity].
  - exists t. rewrite (typed_nonempty _ _ Ht). split; [by apply content_type_spec|by apply seqb_false].
Qed.
Lemma ill_typed_parse ct : ill_typed ct -> seqb ct "" = false /\ exists t, parse_media_type ct = (t, false).
Proof.
  intros [Hne H]. split; [by apply seqb_false|]. destruct (parse_media_type ct) as [t ok] eqn:E. exists t. destruct ok; [|done].
  apply content_type_spec in E. by destruct (H t).
Qed.
Lemma three_kinds ct : form_typed ct \/ other_typed ct \/ ill_typed ct.
Proof.
  unfold form_typed, other_typed, ill_typed. destruct (seqb ct "") eqn:Ee; [apply seqb_true in Ee; right; left; by left|].
  apply seqb_false in Ee. destruct (parse_media_type ct) as [t ok] eqn:E. destruct ok.
  - apply content_type_spec in E. destruct (seqb t form_type) eqn:Et; [apply seqb_true in Et; subst t; by left|].
    apply seqb_false in Et. right; left; right. by exists t.
  - right; right. split; [done|]. intros t' Ht. apply content_type_spec in Ht. congruence.
Qed.

(** ** Requests *)
Lemma has_body_method m : with_body m <-> has_form_body m = true.
Proof. unfold with_body, has_form_body. rewrite !orb_true_iff, !seqb_true. tauto. Qed.
Lemma has_body_method_not m : ~ with_body m <-> has_form_body m = false.
Proof. rewrite has_body_method. by destruct (has_form_body m). Qed.

Lemma carries_form r body query : carries r body query ->
  parse_form r = Some {| f_post := add_pairs ∅ body;
                         f_form := merge_values (add_pairs ∅ body) (add_pairs ∅ query) |}.
Proof.
  intros (Hp & Hq & Hb). unfold parse_form. rewrite Hp. apply says_parse in Hq. rewrite Hq.
  destruct Hb as [[Hm ->]|(Hm & text & ends & Ht & Hb)].
  - apply has_body_method_not in Hm. by rewrite Hm.
  - apply has_body_method in Hm. rewrite Hm, Ht. unfold parse_post_form. rewrite Ht.
    destruct Hb as [(Hc & -> & Hl & Hs)|[Hc ->]].
    + rewrite (form_typed_nonempty _ Hc), (form_typed_parse _ Hc).
      change (seqb form_ctype form_ctype) with true. cbn [negb orb].
      replace (max_form_size <? Z.of_nat (slen text))%Z with false
        by (symmetry; apply Z.ltb_ge; exact Hl).
      rewrite (says_parse _ _ Hs). reflexivity.
    + destruct (other_typed_parse _ Hc) as (t & Ht' & Hne). rewrite Ht', Hne. reflexivity.
Qed.
Lemma unreadable_form r : unreadable r -> parse_form r = None.
Proof.
  intros (Hp & H). unfold parse_form. rewrite Hp.
  destruct (parse_query (rq_query r)) as [q ok] eqn:Eq.
  destruct H as [H|(Hm & H)].
  - destruct ok; [exfalso; apply H; by apply (parse_says _ q)|].
    destruct (if has_form_body _ then _ else _) as [v b]. by rewrite andb_false_r.
  - apply has_body_method in Hm. rewrite Hm. destruct H as [Hb|(text & ends & Hb & [Hc|[Hc H]])]; [by rewrite Hb| |].
    { rewrite Hb. unfold parse_post_form. rewrite Hb. apply ill_typed_parse in Hc as [-> (t & ->)].
      destruct (seqb t form_ctype); [|done]. destruct (_ || _); [done|]. by destruct (parse_query text). }
    rewrite Hb. unfold parse_post_form. rewrite Hb, (form_typed_nonempty _ Hc), (form_typed_parse _ Hc).
    change (seqb form_ctype form_ctype) with true. cbv iota.
    destruct H as [->|[H|H]].
    + reflexivity.
    + replace (max_form_size <? Z.of_nat (slen text))%Z with true by (symmetry; apply Z.ltb_lt; exact H).
      by rewrite orb_true_r.
    + destruct (_ || _); [done|]. destruct (parse_query text) as [v b] eqn:Et.
      destruct b; [exfalso; apply H; by apply (parse_says _ v)|done].
Qed.

Lemma c75_fields : forall r body query k, carries r body query ->
  body_param r k = written k body /\ form_param r k = written k (body ++ query).
Proof.
  intros r body query k H. apply carries_form in H. unfold body_param, form_param. rewrite H. cbn [f_post f_form].
  split; [apply vget_written|apply merge_written].
Qed.

Lemma named_basic r body id secret : client_named r body id secret <->
  match basic_auth r with Some c => c | None => (written "client_id" body, written "client_secret" body) end
  = (id, secret).
Proof.
  unfold client_named. assert (HB : forall i s, basic_header r i s <-> basic_auth r = Some (i, s)).
  { intros i s. unfold basic_header. by rewrite basic_auth_spec. }
  destruct (basic_auth r) as [[i s]|] eqn:E.
  - split.
    + intros [H|(Hn & _)]; [apply HB in H; by injection H as <- <-|]. exfalso. apply Hn. exists i, s. by apply HB.
    + intros H. injection H as <- <-. left. by apply HB.
  - split.
    + intros [H|(_ & -> & ->)]; [by apply HB in H|done].
    + intros H. injection H as <- <-. right. split; [|done]. intros (i & s & H). by apply HB in H.
Qed.
Lemma passes_uri u : passes_as_uri u <->
  match parse_request_uri u with None => false | Some p => seqb (u_fragment p) "" end = true.
Proof.
  unfold passes_as_uri. destruct (parse_request_uri u) as [p|].
  - split; [intros (p' & H & Hf); injection H as <-; by apply seqb_true|intros H; exists p; split; [done|by apply seqb_true]].
  - split; [by intros (? & ? & _)|done].
Qed.

Lemma c75_token : forall r body query q, carries r body query ->
  parse_token_request r = inl q <-> token_fields r body q.
Proof.
  intros r body query q H. apply carries_form in H. unfold parse_token_request, token_fields. rewrite H.
  cbv zeta. cbn [f_post]. rewrite !vget_written, named_basic, stands_unescape.
  destruct (match basic_auth r with Some c => c | None => (written "client_id" body, written "client_secret" body) end) as [id secret].
  split.
  - destruct (seqb (rq_method r) "POST") eqn:Em; cbn [negb]; [|done]. apply seqb_true in Em.
    destruct (seqb (written "grant_type" body) "") eqn:Eg; [done|]. apply seqb_false in Eg.
    destruct (seqb id "") eqn:Ei; [done|]. apply seqb_false in Ei.
    destruct (query_unescape (written "redirect_uri" body)) as [u|] eqn:Eu; [|done].
    destruct (if seqb u "" then true else _) eqn:Ek; cbn [negb]; [|done].
    intros Hq. injection Hq as <-. cbn. repeat split; try done.
    destruct (seqb u "") eqn:E0; [left; by apply seqb_true|right; by apply passes_uri].
  - intros (Hm & Hg & Hg' & Hs & Hc & Hc' & Hu & Hp & Hr & Hcode & Hre & Hok). apply seqb_true in Hm. rewrite Hm. cbn [negb].
    rewrite Hg in Hg'. apply seqb_false in Hg'. rewrite Hg'. injection Hc as -> ->. apply seqb_false in Hc'. rewrite Hc', Hre.
    assert ((if seqb (tq_redirect_uri q) "" then true else
       match parse_request_uri (tq_redirect_uri q) with None => false | Some p => seqb (u_fragment p) "" end) = true) as ->.
    { destruct Hok as [->|Hok]; [done|]. apply passes_uri in Hok.
      destruct (seqb (tq_redirect_uri q) ""); [reflexivity|exact Hok]. }
    cbn [negb]. f_equal. destruct q; cbn in *. by subst.
Qed.
Lemma c75_authorization : forall r body query q, carries r body query ->
  parse_authorization_request r = inl q <-> authorization_fields r (body ++ query) q.
Proof.
  intros r body query q H. apply carries_form in H. unfold parse_authorization_request, authorization_fields. rewrite H.
  cbv zeta. cbn [f_form]. rewrite !merge_written, stands_unescape.
  split.
  - destruct (negb (seqb (rq_method r) "GET") && _) eqn:Em; [done|].
    apply andb_false_iff in Em. rewrite !negb_false_iff, !seqb_true in Em.
    destruct (seqb (written "response_type" _) "") eqn:Eg; [done|]. apply seqb_false in Eg.
    destruct (seqb (written "client_id" _) "") eqn:Ei; [done|]. apply seqb_false in Ei.
    destruct (query_unescape (written "redirect_uri" _)) as [u|] eqn:Eu; [|done].
    destruct (seqb u "") eqn:E0; [done|]. apply seqb_false in E0.
    destruct (parse_request_uri u) as [p|] eqn:Ep; [|done].
    destruct (seqb (u_fragment p) "") eqn:Ef; cbn [negb]; [|done]. apply seqb_true in Ef.
    intros Hq. injection Hq as <-. cbn. repeat split; try done. by exists p.
  - intros (Hm & Ht & Ht' & Hs & Hc & Hc' & Hst & Hre & Hne & p & Hp & Hf).
    replace (negb (seqb (rq_method r) "GET") && negb (seqb (rq_method r) "POST")) with false.
    2:{ symmetry. apply andb_false_iff. rewrite !negb_false_iff, !seqb_true. exact Hm. }
    rewrite Ht in Ht'. apply seqb_false in Ht'. rewrite Ht'. rewrite Hc in Hc'. apply seqb_false in Hc'. rewrite Hc', Hre.
    apply seqb_false in Hne. rewrite Hne, Hp, Hf. cbn. f_equal. destruct q; cbn in *. by subst.
Qed.
Lemma lookup_fields_spec r body query q : carries r body query ->
  parse_lookup_request r = inl q <-> lookup_fields r body q.
Proof.
  intros H. apply carries_form in H. unfold parse_lookup_request, lookup_fields. rewrite H.
  cbv zeta. cbn [f_post]. rewrite !vget_written. unfold basic_header. rewrite <- basic_auth_spec.
  split.
  - destruct (seqb (rq_method r) "POST") eqn:Em; cbn [negb]; [|done]. apply seqb_true in Em.
    destruct (seqb (written "token" body) "") eqn:Eg; [done|]. apply seqb_false in Eg.
    destruct (basic_auth r) as [[i s]|]; [|done]. intros Hq. injection Hq as <-. cbn. by repeat split.
  - intros (Hm & Ht & Ht' & Hh & Hb). apply seqb_true in Hm. rewrite Hm. cbn [negb].
    rewrite Ht in Ht'. apply seqb_false in Ht'. rewrite Ht', Hb. f_equal. destruct q; cbn in *. by subst.
Qed.
Lemma c75_lookup : forall r body query q, carries r body query ->
  (parse_introspection_request r = inl q <-> lookup_fields r body q) /\
  (parse_revocation_request r = inl q <-> lookup_fields r body q).
Proof. intros r body query q H. split; exact (lookup_fields_spec r body query q H). Qed.

Lemma c75_unreadable : forall ev s r name, unreadable r -> last_segment (rq_path r) = name ->
  In name ["authorize"; "token"; "introspect"; "revoke"] ->
  exists w, serve_http ev s r new_rw = (s, Some w) /\ error_document w 400 "invalid_request".
Proof.
  intros ev s r name H Hl Hin. apply unreadable_form in H.
  assert (HH : exists d, ascii_only d = true /\ handle ev s r = Done s (OError (InvalidRequest d))).
  { assert (H1 : exists d, ascii_only d = true /\ parse_authorization_request r = inr (InvalidRequest d)).
    { unfold parse_authorization_request. rewrite H. destruct (_ && _); eexists; (split; [|reflexivity]); reflexivity. }
    assert (H2 : exists d, ascii_only d = true /\ parse_token_request r = inr (InvalidRequest d)).
    { unfold parse_token_request. rewrite H. destruct (negb _); eexists; (split; [|reflexivity]); reflexivity. }
    assert (H3 : exists d, ascii_only d = true /\ parse_lookup_request r = inr (InvalidRequest d)).
    { unfold parse_lookup_request. rewrite H. destruct (negb _); eexists; (split; [|reflexivity]); reflexivity. }
    unfold handle. rewrite Hl. destruct Hin as [<-|[<-|[<-|[<-|[]]]]].
    - destruct H1 as (d & Hd & H1). exists d. split; [done|]. cbn. unfold authorization_endpoint. by rewrite H1.
    - destruct H2 as (d & Hd & H2). exists d. split; [done|]. cbn. unfold token_endpoint. by rewrite H2.
    - destruct H3 as (d & Hd & H3). exists d. split; [done|]. cbn. unfold introspection_endpoint. unfold lookup_prologue. by rewrite H3.
    - destruct H3 as (d & Hd & H3). exists d. split; [done|]. cbn. unfold revocation_endpoint. unfold lookup_prologue. by rewrite H3. }
  destruct HH as (d & Hd & HH).
  destruct (write_plain (InvalidRequest d) (plain_invalid_request _ Hd)) as (w & Hw & _ & He & _).
  exists w. unfold serve_http. rewrite HH, Hw. by split.
Qed.

(** Every request is of one kind or the other, and of no other kind. *)
Lemma c75_readable : forall r, rq_preset r = None ->
  (unreadable r \/ exists body query, carries r body query) /\
  (forall body query, carries r body query -> ~ unreadable r) /\
  (forall body query body' query', carries r body query -> carries r body' query' -> body = body' /\ query = query').
Proof.
  intros r Hp. split; [|split].
  - assert (Hd : forall t, (exists l, says t l) \/ ~ exists l, says t l).
    { intros t. destruct (pairs_of (split_pairs t)) as [l|] eqn:E.
      - left. exists l. by apply says_pairs.
      - right. intros (l & Hl). apply says_pairs in Hl. by rewrite Hl in E. }
    destruct (Hd (rq_query r)) as [(query & Hq)|Hq]; [|left; split; [done|by left]].
    destruct (has_form_body (rq_method r)) eqn:Em.
    + apply has_body_method in Em. destruct (rq_body r) as [[text ends]|] eqn:Hb; [|left; split; [done|right; split; [done|by left]]].
      destruct (three_kinds (rq_ctype r)) as [H|[H|H]].
      * destruct ends.
        2:{ left. split; [done|]. right. split; [done|]. right. exists text, false. split; [done|]. right. split; [done|by left]. }
        destruct (Z_le_gt_dec (Z.of_nat (String.length text)) 10485760) as [Hl|Hl].
        2:{ left. split; [done|]. right. split; [done|]. right. exists text, true. split; [done|]. right. split; [done|].
            right; left. lia. }
        destruct (Hd text) as [(body & Hs)|Hs].
        -- right. exists body, query. split; [done|]. split; [done|]. right. split; [done|]. exists text, true. split; [done|]. by left.
        -- left. split; [done|]. right. split; [done|]. right. exists text, true. split; [done|]. right. split; [done|]. by right; right.
      * right. exists [], query. split; [done|]. split; [done|]. right. split; [done|]. exists text, ends. split; [done|]. by right.
      * left. split; [done|]. right. split; [done|]. right. exists text, ends. split; [done|]. by left.
    + apply has_body_method_not in Em. right. exists [], query. split; [done|]. split; [done|]. by left.
  - intros body query Hc Hu. apply carries_form in Hc. apply unreadable_form in Hu. congruence.
  - assert (Hs : forall t l l', says t l -> says t l' -> l = l').
    { intros t l l' H H'. apply says_pairs in H, H'. congruence. }
    assert (Hno : forall ct, form_typed ct -> other_typed ct -> False).
    { intros ct H [->|(t & Hne & Ht)]; [by apply typed_nonempty in H|]. apply Hne. by eapply typed_unique. }
    intros body query body' query' (_ & Hq & Hb) (_ & Hq' & Hb'). split; [|by eapply Hs].
    destruct Hb as [[Hm ->]|(Hm & text & ends & Ht & Hb)], Hb' as [[Hm' ->]|(Hm' & text' & ends' & Ht' & Hb')]; try done.
    rewrite Ht in Ht'. injection Ht' as <- <-.
    destruct Hb as [(Hc & _ & _ & Hl)|[Hc ->]], Hb' as [(Hc' & _ & _ & Hl')|[Hc' ->]]; [by eapply Hs|by destruct (Hno _ Hc Hc')|by destruct (Hno _ Hc' Hc)|done].
Qed.
