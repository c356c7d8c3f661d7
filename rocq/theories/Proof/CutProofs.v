(** C63: a document that is cut off is not a document. *)
From Verif.Model Require Import GoStr Server Client.
From Verif.Spec Require Import ScopeSpec WireSpec RequestSpec ServerSpec ClientSpec.
From Verif.Proof Require Import StrFacts UrlFacts DecFacts JsonFacts ScopeFacts ScopeProofs WireFacts WireProofs CodecFacts CodecProofs.
From Coq Require Import ZifyBool ZifyNat ZifyN.

Lemma strip_prefix_app p s r t : strip_prefix p s = Some r -> strip_prefix p (s +:+ t) = Some (r +:+ t).
Proof.
  revert s. induction p as [|a p IH]; intros s; [cbn; by intros [= ->]|].
  destruct s as [|b s]; [done|]. rewrite app_cons_s. cbn. destruct (Ascii.eqb a b); [apply IH|done].
Qed.
Lemma skip_ws_app s a r t : skip_ws s = String a r -> skip_ws (s +:+ t) = String a (r +:+ t).
Proof.
  induction s as [|b s IH]; [done|]. rewrite app_cons_s. cbn. destruct (is_json_space b); [exact IH|].
  intros [= -> ->]. done.
Qed.

Lemma scan_string_app s : forall l rest t, scan_string s = Some (l, rest) -> scan_string (s +:+ t) = Some (l, rest +:+ t).
Proof.
  remember (slen s) as n eqn:Hn. revert s Hn. induction n as [n IH] using lt_wf_ind. intros s -> l rest t.
  destruct s as [|a s]; [done|]. rewrite app_cons_s. cbn [scan_string].
  destruct (Ascii.eqb a quote); [by intros [= <- <-]|].
  destruct (Ascii.eqb a bslash).
  - destruct s as [|e s]; [done|]. rewrite app_cons_s. destruct (Ascii.eqb e "u").
    + destruct s as [|h1 [|h2 [|h3 [|h4 s]]]]; try done. rewrite !app_cons_s.
      destruct (hex_val h1), (hex_val h2), (hex_val h3), (hex_val h4); try done.
      destruct (scan_string s) as [[k rest']|] eqn:E; [|done]. intros [= <- <-].
      rewrite (IH (slen s)) with (l := k) (rest := rest'); [done|cbn; lia|done|done].
    + destruct (simple_escape e); [|done].
      destruct (scan_string s) as [[k rest']|] eqn:E; [|done]. intros [= <- <-].
      rewrite (IH (slen s)) with (l := k) (rest := rest'); [done|cbn; lia|done|done].
  - destruct (ord a <? 32)%N; [done|].
    destruct (scan_string s) as [[k rest']|] eqn:E; [|done]. intros [= <- <-].
    rewrite (IH (slen s)) with (l := k) (rest := rest'); [done|cbn; lia|done|done].
Qed.

Lemma take_digits_ext s d rest t : take_digits s = (d, rest) -> rest <> "" -> take_digits (s +:+ t) = (d, rest +:+ t).
Proof.
  revert d. induction s as [|a s IH]; intros d; cbn [take_digits].
  - intros [= <- <-]. done.
  - rewrite app_cons_s. cbn [take_digits]. destruct (is_digit a).
    + destruct (take_digits s) as [d' r'] eqn:E. intros [= <- <-] Hr. by rewrite (IH d').
    + intros [= <- <-] _. done.
Qed.
Lemma scan_exp_ext s e rest t : scan_exp s = Some (e, rest) -> rest <> "" -> scan_exp (s +:+ t) = Some (e, rest +:+ t).
Proof.
  destruct s as [|a s]; [by intros [= <- <-]|]. rewrite app_cons_s. cbn [scan_exp].
  destruct (Ascii.eqb a "e" || Ascii.eqb a "E"); [|by intros [= <- <-]].
  destruct s as [|b s].
  - cbn. done.
  - rewrite app_cons_s. destruct (Ascii.eqb b "+" || Ascii.eqb b "-").
    + destruct (take_digits s) as [d r] eqn:E. destruct (seqb d "") eqn:Ed; [done|]. intros [= <- <-] Hr.
      by rewrite (take_digits_ext _ _ _ _ E Hr), Ed.
    + destruct (take_digits (String b s)) as [d r] eqn:E. destruct (seqb d "") eqn:Ed; [done|]. intros [= <- <-] Hr.
      rewrite <- app_cons_s. by rewrite (take_digits_ext _ _ _ _ E Hr), Ed.
Qed.
Lemma scan_exp_nonempty s e rest : scan_exp s = Some (e, rest) -> rest <> "" -> s <> "".
Proof. destruct s; [|done]. by intros [= <- <-]. Qed.
Lemma scan_frac_ext s f rest t : scan_frac s = Some (f, rest) -> rest <> "" -> scan_frac (s +:+ t) = Some (f, rest +:+ t).
Proof.
  destruct s as [|a s]; [by intros [= <- <-]|]. rewrite app_cons_s. cbn [scan_frac].
  destruct (Ascii.eqb a "."); [|by intros [= <- <-]].
  destruct (take_digits s) as [d r] eqn:E. destruct (seqb d "") eqn:Ed; [done|]. intros [= <- <-] Hr.
  by rewrite (take_digits_ext _ _ _ _ E Hr), Ed.
Qed.
Lemma scan_frac_nonempty s e rest : scan_frac s = Some (e, rest) -> rest <> "" -> s <> "".
Proof. destruct s; [|done]. by intros [= <- <-]. Qed.
Lemma scan_int_ext s i rest t : scan_int s = Some (i, rest) -> rest <> "" -> scan_int (s +:+ t) = Some (i, rest +:+ t).
Proof.
  destruct s as [|a s]; [done|]. rewrite app_cons_s. cbn [scan_int].
  destruct (Ascii.eqb a "0"); [by intros [= <- <-]|]. destruct (is_digit a); [|done].
  destruct (take_digits s) as [d r] eqn:E. intros [= <- <-] Hr. by rewrite (take_digits_ext _ _ _ _ E Hr).
Qed.
Lemma scan_number_ext s l rest t : scan_number s = Some (l, rest) -> rest <> "" -> scan_number (s +:+ t) = Some (l, rest +:+ t).
Proof.
  assert (Hcore : forall sg s0, match scan_int s0 with
      | None => None
      | Some (i0, s1) => match scan_frac s1 with None => None | Some (f0, s2) =>
          match scan_exp s2 with None => None | Some (e0, s3) => Some (sg +:+ i0 +:+ f0 +:+ e0, s3) end end end
      = Some (l, rest) -> rest <> "" -> match scan_int (s0 +:+ t) with
      | None => None
      | Some (i0, s1) => match scan_frac s1 with None => None | Some (f0, s2) =>
          match scan_exp s2 with None => None | Some (e0, s3) => Some (sg +:+ i0 +:+ f0 +:+ e0, s3) end end end
      = Some (l, rest +:+ t)).
  { intros sg s0. destruct (scan_int s0) as [[i s1]|] eqn:E1; [|done].
    destruct (scan_frac s1) as [[f s2]|] eqn:E2; [|done]. destruct (scan_exp s2) as [[e s3]|] eqn:E3; [|done].
    intros [= <- <-] Hr. pose proof (scan_exp_nonempty _ _ _ E3 Hr) as H2. pose proof (scan_frac_nonempty _ _ _ E2 H2) as H1.
    rewrite (scan_int_ext _ _ _ _ E1 H1), (scan_frac_ext _ _ _ _ E2 H2), (scan_exp_ext _ _ _ _ E3 Hr). done. }
  unfold scan_number. destruct s as [|a s]; [done|]. rewrite app_cons_s. destruct (Ascii.eqb a "-").
  - apply Hcore.
  - intros H Hr. rewrite <- app_cons_s. by apply Hcore.
Qed.

Definition is_number (j : json) : bool := match j with JNum _ => true | _ => false end.

Lemma skip_ws_nonempty s a r : skip_ws s = String a r -> s <> "".
Proof. by destruct s. Qed.

Lemma parse_ext fuel :
  (forall d s j rest t fuel', parse_value fuel d s = Some (j, rest) -> (is_number j = true -> rest <> "") -> fuel <= fuel' ->
     parse_value fuel' d (s +:+ t) = Some (j, rest +:+ t)) /\
  (forall d s l rest t fuel', parse_members fuel d s = Some (l, rest) -> fuel <= fuel' ->
     parse_members fuel' d (s +:+ t) = Some (l, rest +:+ t)) /\
  (forall d s l rest t fuel', parse_elements fuel d s = Some (l, rest) -> fuel <= fuel' ->
     parse_elements fuel' d (s +:+ t) = Some (l, rest +:+ t)).
Proof.
  induction fuel as [|f (IHv & IHm & IHe)]; [done|]. split; [|split].
  - intros d s j rest t [|f'] H Hn Hf; [lia|]. cbn [parse_value] in H |- *.
    destruct (skip_ws s) as [|a r] eqn:Es; [done|]. rewrite (skip_ws_app _ _ _ t Es).
    destruct (Ascii.eqb a "{").
    { destruct (d =? 0)%N; [done|]. destruct (skip_ws r) as [|b r1] eqn:Er; [done|]. rewrite (skip_ws_app _ _ _ t Er).
      destruct (Ascii.eqb b "}"); [by injection H as <- <-|].
      destruct (parse_members f (d - 1) (String b r1)) as [[l rest']|] eqn:E; [|done]. injection H as <- <-.
      rewrite <- app_cons_s. rewrite (IHm _ _ _ _ t f' E); [done|lia]. }
    destruct (Ascii.eqb a "[").
    { destruct (d =? 0)%N; [done|]. destruct (skip_ws r) as [|b r1] eqn:Er; [done|]. rewrite (skip_ws_app _ _ _ t Er).
      destruct (Ascii.eqb b "]"); [by injection H as <- <-|].
      destruct (parse_elements f (d - 1) (String b r1)) as [[l rest']|] eqn:E; [|done]. injection H as <- <-.
      rewrite <- app_cons_s. rewrite (IHe _ _ _ _ t f' E); [done|lia]. }
    destruct (Ascii.eqb a quote).
    { destruct (scan_string r) as [[l rest']|] eqn:E; [|done]. injection H as <- <-. by rewrite (scan_string_app _ _ _ t E). }
    rewrite <- !app_cons_s.
    destruct (Ascii.eqb a "t").
    { destruct (strip_prefix "true" (String a r)) eqn:E; [|done]. injection H as <- <-. by rewrite (strip_prefix_app _ _ _ t E). }
    destruct (Ascii.eqb a "f").
    { destruct (strip_prefix "false" (String a r)) eqn:E; [|done]. injection H as <- <-. by rewrite (strip_prefix_app _ _ _ t E). }
    destruct (Ascii.eqb a "n").
    { destruct (strip_prefix "null" (String a r)) eqn:E; [|done]. injection H as <- <-. by rewrite (strip_prefix_app _ _ _ t E). }
    destruct (scan_number (String a r)) as [[lit rest']|] eqn:E; [|done]. injection H as <- <-.
    by rewrite (scan_number_ext _ _ _ t E (Hn eq_refl)).
  - intros d s l rest t [|f'] H Hf; [lia|]. cbn [parse_members] in H |- *.
    destruct (skip_ws s) as [|a r] eqn:Es; [done|]. rewrite (skip_ws_app _ _ _ t Es).
    destruct (negb (Ascii.eqb a quote)); [done|].
    destruct (scan_string r) as [[k r1]|] eqn:E1; [|done]. rewrite (scan_string_app _ _ _ t E1).
    destruct (skip_ws r1) as [|b r2] eqn:E2; [done|]. rewrite (skip_ws_app _ _ _ t E2).
    destruct (negb (Ascii.eqb b ":")); [done|].
    destruct (parse_value f d r2) as [[v r3]|] eqn:E3; [|done].
    destruct (skip_ws r3) as [|c r4] eqn:E4; [done|].
    rewrite (IHv _ _ _ _ t f' E3); [|intros _; by eapply skip_ws_nonempty|lia]. rewrite (skip_ws_app _ _ _ t E4).
    destruct (Ascii.eqb c "}"); [by injection H as <- <-|]. destruct (Ascii.eqb c ","); [|done].
    destruct (parse_members f d r4) as [[l' rest']|] eqn:E5; [|done]. injection H as <- <-.
    rewrite (IHm _ _ _ _ t f' E5); [done|lia].
  - intros d s l rest t [|f'] H Hf; [lia|]. cbn [parse_elements] in H |- *.
    destruct (parse_value f d s) as [[v r]|] eqn:E3; [|done].
    destruct (skip_ws r) as [|c r4] eqn:E4; [done|].
    rewrite (IHv _ _ _ _ t f' E3); [|intros _; by eapply skip_ws_nonempty|lia]. rewrite (skip_ws_app _ _ _ t E4).
    destruct (Ascii.eqb c "]"); [by injection H as <- <-|]. destruct (Ascii.eqb c ","); [|done].
    destruct (parse_elements f d r4) as [[l' rest']|] eqn:E5; [|done]. injection H as <- <-.
    rewrite (IHe _ _ _ _ t f' E5); [done|lia].
Qed.

Lemma take_max_split n s : exists q, s = take_max n s +:+ q /\ slen q = slen s - n.
Proof.
  revert n. induction s as [|a s IH]; intros [|n].
  - by exists "".
  - by exists "".
  - exists (String a s). by rewrite app_nil_s.
  - destruct (IH n) as (q & H & Hl). exists q. cbn [take_max String.length]. rewrite app_cons_s, <- H. done.
Qed.
Lemma take_max_app n s t : n <= slen s -> take_max n (s +:+ t) = take_max n s.
Proof. revert n. induction s as [|a s IH]; intros [|n] H; cbn in *; try done; [lia|]. f_equal. apply IH. lia. Qed.

Lemma parse_object_head f d s j rest : parse_value f d (String "{" s) = Some (j, rest) -> is_number j = false.
Proof.
  destruct f as [|f]; [done|]. cbn [parse_value]. rewrite skip_ws_cons by done. change (Ascii.eqb "{" "{") with true. cbv iota.
  destruct (d =? 0)%N; [done|]. destruct (skip_ws s) as [|b r]; [done|].
  destruct (Ascii.eqb b "}"); [by intros [= <- <-]|]. destruct (parse_members f (d - 1) (String b r)) as [[l r']|]; [|done].
  by intros [= <- <-].
Qed.

Lemma cut_object l n : sendable (JObj l) -> n < slen (json_render (JObj l)) -> json_parse (take_max n (json_encode (JObj l))) = None.
Proof.
  intros [Hok Hd] Hn. unfold json_encode. rewrite take_max_app by lia.
  destruct (take_max_split n (json_render (JObj l))) as (q & Hq & Hlq). set (p := take_max n _) in *.
  destruct (json_parse p) as [j|] eqn:E; [exfalso|done]. unfold json_parse in E.
  destruct (parse_value (S (slen p)) max_depth p) as [[j' rest]|] eqn:Ep; [|done].
  assert (Hnum : is_number j' = false).
  { destruct p as [|a p'] eqn:Epp; [done|].
    assert (a = "{"%char) as ->.
    { change (json_render (JObj l)) with (String "{" (join "," (map member_text l) +:+ "}")) in Hq.
      rewrite app_cons_s in Hq. by injection Hq as <- _. }
    by eapply parse_object_head. }
  destruct (parse_ext (S (slen p))) as (H & _ & _).
  specialize (H _ _ _ _ q (S (slen (p +:+ q))) Ep). rewrite Hnum in H.
  specialize (H ltac:(done)). rewrite slen_app in H. specialize (H ltac:(lia)). rewrite <- Hq in H.
  pose proof (render_value_ok _ Hok (S (slen p + slen q)) max_depth "") as Hr. rewrite app_nil_r_s in Hr.
  rewrite Hr in H; [|rewrite Hq, slen_app; lia|exact Hd|done].
  injection H as _ H. symmetry in H. apply app_eq_nil in H as [_ ->]. change (slen "") with 0 in Hlq. lia.
Qed.

Lemma read_cut rs limit : (limit < Z.of_nat (slen (rs_body rs)))%Z ->
  read_limited rs limit = (take_max (Z.to_nat limit) (rs_body rs), true).
Proof. intros H. unfold read_limited. destruct (Nat.leb_spec (Z.to_nat limit) (slen (rs_body rs))); [done|lia]. Qed.

Lemma cut_parse l limit : sendable (JObj l) -> (limit + 1 < Z.of_nat (slen (json_encode (JObj l))))%Z ->
  json_parse (take_max (Z.to_nat limit) (json_encode (JObj l))) = None.
Proof.
  intros Hs H. apply cut_object; [done|]. unfold json_encode in H. rewrite slen_app in H. cbn [str1 String.length] in H.
  assert (1 <= slen (json_render (JObj l))) by (apply render_nonempty; apply Hs). lia.
Qed.

Lemma c63_token : forall w0 r, unsent w0 -> tr_redirect_uri r = "" -> token_texts r ->
  exists w rs, write_token_response w0 r = Some (w, true) /\ received w = Some rs /\
    forall limit, cuts w limit -> parse_token_response rs limit = None.
Proof.
  intros w0 r Hw Hr Ht. unfold write_token_response. rewrite Hr. change (negb (seqb "" "")) with false. cbv iota.
  destruct (written_document w0 (token_json r) 200 Hw) as (w & Hwr & Hb & Hrec); [unfold status_with_body; lia|].
  eexists w, _. split; [done|]. split; [done|]. intros limit Hl. unfold cuts in Hl. rewrite Hb in Hl.
  unfold parse_token_response, read_json_body. rewrite read_cut by (cbn [rs_body]; lia). cbn [rs_body rs_ctype negb]. rewrite json_media.
  cbn [negb]. change (negb (seqb "application/json" "application/json")) with false. cbv iota.
  unfold token_json in *. rewrite cut_parse; [done|by apply token_sendable|done].
Qed.
Lemma c63_introspection : forall w0 r, unsent w0 -> (ir_active r = true -> In (ir_token_type r) ["access_token"; "refresh_token"]) ->
  introspection_texts r ->
  exists w rs, write_introspection_response w0 r = Some (w, true) /\ received w = Some rs /\
    forall limit, cuts w limit -> parse_introspection_response rs limit = None.
Proof.
  intros w0 r Hw Hk Ht. unfold write_introspection_response.
  assert (ir_active r && negb (known_token_type (ir_token_type r)) = false) as ->.
  { destruct (ir_active r); [|done]. by destruct (Hk eq_refl) as [<-|[<-|[]]]. }
  destruct (written_document w0 (introspection_json r) 200 Hw) as (w & Hwr & Hb & Hrec); [unfold status_with_body; lia|].
  eexists w, _. split; [done|]. split; [done|]. intros limit Hl. unfold cuts in Hl. rewrite Hb in Hl.
  unfold parse_introspection_response, read_json_body. rewrite read_cut by (cbn [rs_body]; lia). cbn [rs_body rs_ctype negb]. rewrite json_media.
  cbn [negb]. change (negb (seqb "application/json" "application/json")) with false. cbv iota.
  unfold introspection_json in *. rewrite cut_parse; [done|exact (introspection_sendable _ r float_json_number Ht)|done].
Qed.
Lemma c63_error : forall w0 e, unsent w0 -> e_redirect_uri e = "" -> status_with_body (e_status e) -> error_texts e ->
  exists w rs, write_error w0 (GErr e) = Some (w, true) /\ received w = Some rs /\
    forall limit, cuts w limit -> parse_request_error rs limit = GOther.
Proof.
  intros w0 e Hw Hr Hc [Hu Hg]. unfold write_error, write_error_order. rewrite Hr. change (negb (seqb "" "")) with false. cbv iota.
  set (w1 := fold_left _ _ w0).
  assert (Hw1 : unsent w1).
  { unfold w1. destruct (set_headers_sent w0 (map_to_list (e_headers e))) as [H1 H2]. unfold set_headers in *.
    unfold unsent. rewrite H1, H2. exact Hw. }
  destruct (written_document w1 (error_json e) (e_status e) Hw1 Hc) as (w & Hwr & Hb & Hrec).
  eexists w, _. split; [done|]. split; [done|]. intros limit Hl. unfold cuts in Hl. rewrite Hb in Hl.
  unfold parse_request_error. rewrite read_cut by (cbn [rs_body]; lia). cbn [rs_body].
  unfold error_json in *. rewrite cut_parse; [done|by apply error_sendable|done].
Qed.
