(** Proofs of C07 - C10. *)
From Verif.Model Require Import Scope Oauth2.
From Verif.Spec Require Import ScopeSpec JsonSpec.
From Verif.Proof Require Import StrFacts ScopeFacts DecFacts JsonFacts.
From Coq Require Import ZifyBool ZifyNat ZifyN.
Ltac Zify.zify_post_hook ::= Z.div_mod_to_equations.

Lemma c07_normal_form : forall s,
  Forall good_item (items (parse_scope s)) /\
  parse_scope (scope_string (parse_scope s)) = parse_scope s /\
  (parse_scope s = None <-> only_white s).
Proof.
  intros s. split; [apply parse_scope_good|]. split; [|apply parse_scope_none].
  apply parse_scope_items_inj. apply good_items_fix, parse_scope_good.
Qed.

Lemma c08_proof : forall sc,
  items (parse_scope (scope_string sc)) = items sc <-> Forall good_item (items sc).
Proof.
  intros sc. split.
  - intros <-. apply parse_scope_good.
  - apply good_items_fix.
Qed.

Lemma c09_proof : forall s t u x,
  (scope_contains s x = true <-> In x (items s)) /\
  (scope_includes s t = true <-> incl (items t) (items s)) /\
  scope_includes s s = true /\
  (scope_includes s t = true -> scope_includes t u = true -> scope_includes s u = true) /\
  (items t = [] -> scope_includes s t = true) /\
  (scope_empty s = true <-> forall y, scope_contains s y = false).
Proof.
  intros s t u x. unfold incl. split; [apply scope_contains_spec|]. split; [apply scope_includes_spec|].
  rewrite !scope_includes_spec. split; [auto|]. split; [auto|]. split; [intros ->; done|].
  rewrite scope_empty_spec. split.
  - intros H y. apply not_true_iff_false. rewrite scope_contains_spec, H. tauto.
  - intros H. destruct (items s) as [|i l] eqn:E; [done|]. specialize (H i).
    assert (scope_contains s i = true) by (apply scope_contains_spec; rewrite E; left; done). congruence.
Qed.

Lemma c09_order : forall s s' t t',
  (forall x, In x (items s) <-> In x (items s')) ->
  (forall x, In x (items t) <-> In x (items t')) ->
  scope_includes s t = scope_includes s' t'.
Proof.
  intros s s' t t' Hs Ht.
  destruct (scope_includes s' t') eqn:E.
  - rewrite scope_includes_spec in *. intros x Hx. apply Hs, E, Ht, Hx.
  - apply not_true_iff_false. apply not_true_iff_false in E. intros H. apply E.
    rewrite scope_includes_spec in *. intros x Hx. apply Hs, H, Ht, Hx.
Qed.

(** ** JSON *)

Lemma valid_utf8_app s t : valid_utf8 s -> valid_utf8 t -> valid_utf8 (s +:+ t).
Proof.
  intros (l & Hl & ->) (k & Hk & ->). exists (l ++ k). split; [by apply Forall_app|].
  by rewrite map_app, concat_all_app.
Qed.
Lemma valid_utf8_ascii s : all_bytes (fun a => (ord a <? 128)%N) s = true -> valid_utf8 s.
Proof.
  induction s as [|a s IH]; [by exists []|]. cbn. rewrite andb_true_iff. intros [Ha Hs].
  change (String a s) with (str1 a +:+ s). apply valid_utf8_app; [|auto].
  exists [ord a]. split.
  - constructor; [|constructor]. left. lia.
  - cbn. rewrite utf8_ascii by lia. rewrite chr_ord. done.
Qed.
Lemma valid_utf8_join sep l : valid_utf8 sep -> Forall valid_utf8 l -> valid_utf8 (join sep l).
Proof.
  intros Hs. induction 1 as [|x l Hx Hl IH]; [by exists []|]. destruct l as [|y l]; [done|].
  rewrite join_cons. apply valid_utf8_app; [done|]. by apply valid_utf8_app.
Qed.
Lemma valid_utf8_scope sc : Forall valid_utf8 (items sc) -> valid_utf8 (scope_string sc).
Proof. intros H. apply valid_utf8_join; [|done]. by apply valid_utf8_ascii. Qed.

Lemma c10_roundtrip : forall sc old,
  Forall good_item (items sc) -> Forall valid_utf8 (items sc) ->
  exists sc', scope_unmarshal old (scope_marshal sc) = (sc', true) /\ items sc' = items sc.
Proof.
  intros sc old Hg Hv. unfold scope_unmarshal, scope_marshal.
  rewrite json_roundtrip; [|by apply valid_utf8_scope|done]. cbn.
  eexists. split; [done|]. by apply c08_proof.
Qed.

Lemma hex_digit_spec c n : hex_digit c n -> hex_val c = Some n.
Proof.
  assert (H : forall k c, nth_error (list_ascii_of_string "0123456789abcdef") k = Some c \/
    nth_error (list_ascii_of_string "0123456789ABCDEF") k = Some c -> hex_val c = Some (N.of_nat k)).
  { intros k d. do 16 (destruct k as [|k]; [cbn; intros [[= <-]|[= <-]]; reflexivity|]).
    destruct k; cbn; intros [?|?]; discriminate. }
  unfold hex_digit. intros Hd. apply H in Hd. by rewrite N2Nat.id in Hd.
Qed.

Lemma scan_unicode u n r : unicode_escape u n ->
  scan_string (u +:+ r) = prepend [CUnit n] (scan_string r).
Proof.
  intros (c1 & c2 & c3 & c4 & n1 & n2 & n3 & n4 & H1 & H2 & H3 & H4 & -> & ->).
  apply hex_digit_spec in H1, H2, H3, H4. snorm. cbn [scan_string].
  change (Ascii.eqb backslash quote) with false. change (Ascii.eqb backslash bslash) with true.
  change (Ascii.eqb "u" "u") with true. cbv iota. rewrite H1, H2, H3, H4.
  destruct (scan_string r) as [[l rest]|]; [|done]. cbn. do 3 f_equal. f_equal. lia.
Qed.

Lemma literal_body_scan t v : literal_body t v -> forall rest,
  exists l, scan_string (t +:+ String quote rest) = Some (l, rest) /\ unquote l = v.
Proof.
  induction 1 as [|n t v Hs Hlo Hq Hb _ IH|e b t v He _ IH|u n t v Hu Hs _ IH
    |u1 u2 hi lo t v Hu1 Hu2 Hhi Hlo _ IH]; intros rest.
  - by exists [].
  - destruct (IH rest) as (l & Hl & Hv). snorm.
    destruct (N.lt_ge_cases n 128) as [Hn|Hn].
    + exists (CByte (chr n) :: l). rewrite utf8_ascii by done. unfold str1. snorm. cbn [scan_string].
      assert (Hoq : Ascii.eqb (chr n) quote = false).
      { apply Ascii.eqb_neq. intros E. apply (f_equal ord) in E. rewrite ord_chr in E by lia.
        change (ord quote) with 34%N in E. lia. }
      assert (Hob : Ascii.eqb (chr n) bslash = false).
      { apply Ascii.eqb_neq. intros E. apply (f_equal ord) in E. rewrite ord_chr in E by lia.
        change (ord bslash) with 92%N in E. lia. }
      rewrite Hoq, Hob, ord_chr by lia. replace (n <? 32)%N with false by lia.
      rewrite Hl. split; [done|]. cbn [unquote]. rewrite ord_chr by lia.
      replace (n <? 128)%N with true by lia. by rewrite Hv.
    + exists (map CByte (list_ascii_of_string (utf8 n)) ++ l).
      destruct (utf8_multi n Hs Hn) as [a b -> ? ? ? _|a b c -> ? ? ? ? ? _|a b c d -> ? ? ? ? ? ? ? _];
        unfold str1; snorm; rewrite !scan_high, Hl by done; (split; [done|]);
        cbn [list_ascii_of_string map app unquote].
      * by rewrite H, H1, Hv.
      * by rewrite H, H2, H3, Hv.
      * by rewrite H, H3, H4, H5, Hv.
  - destruct (IH rest) as (l & Hl & Hv). exists (CByte b :: l). snorm. cbn [scan_string].
    change (Ascii.eqb backslash quote) with false. change (Ascii.eqb backslash bslash) with true.
    cbn [In short_escapes] in He. rewrite Hl. split.
    + repeat destruct He as [He|He]; try injection He as <- <-; try done.
    + cbn [unquote]. replace (ord b <? 128)%N with true; [by rewrite Hv|].
      repeat destruct He as [He|He]; try injection He as <- <-; try done.
  - destruct (IH rest) as (l & Hl & Hv). exists (CUnit n :: l). rewrite app_assoc_s, (scan_unicode u n) by done.
    rewrite Hl. split; [done|]. cbn [unquote]. unfold is_surrogate.
    unfold scalar_value in Hs. replace (_ && _) with false by lia. by rewrite Hv.
  - destruct (IH rest) as (l & Hl & Hv). exists (CUnit hi :: CUnit lo :: l). rewrite !app_assoc_s.
    rewrite (scan_unicode u1 hi), (scan_unicode u2 lo) by done. rewrite Hl. split; [done|].
    cbn [unquote]. unfold is_surrogate, is_high, is_low.
    replace ((55296 <=? hi)%N && (hi <? 57344)%N) with true by lia.
    replace ((55296 <=? hi)%N && (hi <? 56320)%N) with true by lia.
    replace ((56320 <=? lo)%N && (lo <? 57344)%N) with true by lia. cbn [andb].
    rewrite Hv, utf8_encode_spec. do 2 f_equal. lia.
Qed.

Lemma blank_space c : In c [" "; "009"; "010"; "013"]%char <-> is_json_space c = true.
Proof.
  split.
  - intros [<-|[<-|[<-|[<-|[]]]]]; reflexivity.
  - unfold is_json_space. rewrite !orb_true_iff, !N.eqb_eq. cbn.
    intros [[[H|H]|H]|H]; [left|right; left|do 3 right; left|do 2 right; left]; apply ord_inj; rewrite H; done.
Qed.
Lemma skip_blank b s : json_blank b -> skip_ws (b +:+ s) = skip_ws s.
Proof.
  induction b as [|a b IH]; [done|]. intros H. inversion H as [|? ? Ha Hb]; subst.
  rewrite app_cons_s. cbn. apply blank_space in Ha. rewrite Ha. by apply IH.
Qed.
Lemma skip_ws_split s : exists b, json_blank b /\ s = b +:+ skip_ws s.
Proof.
  assert (H0 : json_blank "") by constructor.
  induction s as [|a s IH]; [by exists ""|]. cbn. destruct (is_json_space a) eqn:E.
  - destruct IH as (b & Hb & Heq). exists (String a b). split; [|by rewrite app_cons_s, <- Heq].
    constructor; [by apply blank_space|done].
  - by exists "".
Qed.

Lemma json_parse_string text v : json_string_text text v -> json_parse text = Some (JStr v).
Proof.
  intros (b1 & b2 & body & H1 & H2 & Hb & ->). unfold json_parse. cbn [parse_value].
  rewrite skip_blank by done. rewrite skip_ws_cons by done.
  change (Ascii.eqb dq "{") with false. change (Ascii.eqb dq "[") with false.
  change (Ascii.eqb dq quote) with true. cbv iota.
  destruct (literal_body_scan _ _ Hb b2) as (l & Hl & Hu). change dq with quote. rewrite Hl, Hu.
  rewrite <- (app_nil_r_s b2), skip_blank by done. done.
Qed.
Lemma json_parse_null text : json_null_text text -> json_parse text = Some JNull.
Proof.
  intros (b1 & b2 & H1 & H2 & ->). unfold json_parse. cbn [parse_value].
  rewrite skip_blank by done. snorm. rewrite skip_ws_cons by done. cbn.
  rewrite <- (app_nil_r_s b2), skip_blank by done. done.
Qed.

Lemma c10_unmarshal : forall old text,
  (forall v, json_string_text text v -> scope_unmarshal old text = (parse_scope v, true)) /\
  (json_null_text text -> scope_unmarshal old text = (None, true)) /\
  (snd (scope_unmarshal old text) = false -> fst (scope_unmarshal old text) = old).
Proof.
  intros old text. unfold scope_unmarshal. split; [|split].
  - intros v H. by rewrite (json_parse_string _ _ H).
  - intros H. by rewrite (json_parse_null _ H).
  - destruct (json_parse text) as [[]|]; cbn; done || discriminate.
Qed.

Lemma scan_string_split s : forall l rest, scan_string s = Some (l, rest) ->
  exists body, s = body +:+ String quote rest.
Proof.
  remember (slen s) as n eqn:Hn. revert s Hn. induction (lt_wf n) as [n _ IH]. intros s -> l rest.
  destruct s as [|a r]; [done|]. cbn [scan_string].
  destruct (Ascii.eqb_spec a quote) as [->|_]; [intros [= _ <-]; by exists ""|].
  destruct (Ascii.eqb a bslash).
  - destruct r as [|e r1]; [done|]. destruct (Ascii.eqb e "u").
    + destruct r1 as [|h1 [|h2 [|h3 [|h4 r2]]]]; try done.
      destruct (hex_val h1); [|done]. destruct (hex_val h2); [|done].
      destruct (hex_val h3); [|done]. destruct (hex_val h4); [|done].
      destruct (scan_string r2) as [[l' rest']|] eqn:E; [|done]. intros [= _ <-].
      destruct (IH (slen r2)) with (s := r2) (l := l') (rest := rest') as [b ->]; [cbn; lia|done|done|].
      by exists (String a (String e (String h1 (String h2 (String h3 (String h4 b)))))).
    + destruct (simple_escape e); [|done].
      destruct (scan_string r1) as [[l' rest']|] eqn:E; [|done]. intros [= _ <-].
      destruct (IH (slen r1)) with (s := r1) (l := l') (rest := rest') as [b ->]; [cbn; lia|done|done|].
      by exists (String a (String e b)).
  - destruct (ord a <? 32)%N; [done|].
    destruct (scan_string r) as [[l' rest']|] eqn:E; [|done]. intros [= _ <-].
    destruct (IH (slen r)) with (s := r) (l := l') (rest := rest') as [b ->]; [cbn; lia|done|done|].
    by exists (String a b).
Qed.

Lemma c10_only_strings : forall old text sc,
  scope_unmarshal old text = (sc, true) ->
  (json_null_text text /\ sc = None) \/
  (exists b1 b2 body, json_blank b1 /\ json_blank b2 /\
     text = b1 +:+ String dq (body +:+ String dq b2) /\ exists v, sc = parse_scope v).
Proof.
  intros old text sc. unfold scope_unmarshal, json_parse. cbn [parse_value].
  destruct (skip_ws_split text) as (b1 & Hb1 & Heq).
  destruct (skip_ws text) as [|a r] eqn:Es; [done|].
  destruct (Ascii.eqb a "{").
  { destruct (max_depth =? 0)%N; [done|]. destruct (skip_ws r) as [|b r1]; [done|].
    destruct (Ascii.eqb b "}"); [destruct (seqb _ _); done|].
    destruct (parse_members _ _ _) as [[? ?]|]; [|done]. destruct (seqb _ _); done. }
  destruct (Ascii.eqb a "[").
  { destruct (max_depth =? 0)%N; [done|]. destruct (skip_ws r) as [|b r1]; [done|].
    destruct (Ascii.eqb b "]"); [destruct (seqb _ _); done|].
    destruct (parse_elements _ _ _) as [[? ?]|]; [|done]. destruct (seqb _ _); done. }
  destruct (Ascii.eqb_spec a quote) as [->|_].
  { destruct (scan_string r) as [[l rest]|] eqn:E; [|done].
    destruct (seqb (skip_ws rest) "") eqn:Er; [|done]. cbn. intros [= <-]. right.
    apply scan_string_split in E as [body ->].
    destruct (skip_ws_split rest) as (b2 & Hb2 & Heq2). apply seqb_true in Er.
    rewrite Er, app_nil_r_s in Heq2. subst rest.
    exists b1, b2, body. split; [done|]. split; [done|]. split; [done|]. eauto. }
  destruct (Ascii.eqb a "t").
  { destruct (strip_prefix "true" _); [|done]. destruct (seqb _ _); done. }
  destruct (Ascii.eqb a "f").
  { destruct (strip_prefix "false" _); [|done]. destruct (seqb _ _); done. }
  destruct (Ascii.eqb a "n").
  { destruct (strip_prefix "null" _) as [rest|] eqn:E; [|done].
    destruct (seqb (skip_ws rest) "") eqn:Er; [|done]. intros [= <-]. left. split; [|done].
    apply strip_prefix_some in E. rewrite E in Heq.
    destruct (skip_ws_split rest) as (b2 & Hb2 & Heq2). apply seqb_true in Er.
    rewrite Er, app_nil_r_s in Heq2. subst rest. by exists b1, b2. }
  destruct (scan_number _) as [[? ?]|]; [|done]. destruct (seqb _ _); done.
Qed.
