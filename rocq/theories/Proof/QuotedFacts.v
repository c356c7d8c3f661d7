(** Texts in quotes: the scanner reads exactly what TextSpec describes. *)
From Verif.Model Require Import GoStr Json.
From Verif.Spec Require Import ScopeSpec TextSpec.
From Verif.Proof Require Import StrFacts DecFacts JsonFacts.
From Coq Require Import ZifyBool ZifyNat ZifyN.
Ltac Zify.zify_post_hook ::= Z.div_mod_to_equations.

#[local] Open Scope string_scope.

Lemma chr_ord_eq a n : (ord a = n)%N -> a = chr n.
Proof. intros <-. symmetry. apply ascii_N_embedding. Qed.
Lemma ord_bound a : (ord a < 256)%N.
Proof. apply N_ascii_bounded. Qed.

Lemma hex_val_spec a v : hex_val a = Some v <-> hex_digit a v.
Proof.
  unfold hex_val, hex_digit, is_digit. fold (ord a). split.
  - destruct ((48 <=? ord a) && (ord a <=? 57))%N eqn:E1; [intros [= <-]; lia|].
    destruct ((97 <=? ord a) && (ord a <=? 102))%N eqn:E2; [intros [= <-]; lia|].
    destruct ((65 <=? ord a) && (ord a <=? 70))%N eqn:E3; [intros [= <-]; lia|done].
  - intros H. destruct ((48 <=? ord a) && (ord a <=? 57))%N eqn:E1; [f_equal; lia|].
    destruct ((97 <=? ord a) && (ord a <=? 102))%N eqn:E2; [f_equal; lia|].
    destruct ((65 <=? ord a) && (ord a <=? 70))%N eqn:E3; [f_equal; lia|lia].
Qed.
Lemma simple_escape_spec a b : simple_escape a = Some b <-> In (N_of_ascii a, N_of_ascii b) escapes.
Proof.
  assert (H : forallb (fun a => forallb (fun b => Bool.eqb
     (match simple_escape a with Some x => Ascii.eqb x b | None => false end)
     (existsb (fun p => (fst p =? ord a) && (snd p =? ord b))%N escapes)) all_ascii) all_ascii = true) by (vm_compute; reflexivity).
  pose proof (ascii_forall _ H a) as H1. pose proof (ascii_forall _ H1 b) as H2. apply Bool.eqb_prop in H2. clear H H1.
  assert (Hx : existsb (fun p => (fst p =? ord a) && (snd p =? ord b))%N escapes = true <-> In (N_of_ascii a, N_of_ascii b) escapes).
  { rewrite existsb_exists. split.
    - intros ([x y] & Hin & E). cbn [fst snd] in E. apply andb_true_iff in E as [E1 E2]. apply N.eqb_eq in E1, E2. by subst.
    - intros Hin. eexists. split; [exact Hin|]. cbn [fst snd]. by rewrite !N.eqb_refl. }
  rewrite <- Hx, <- H2. destruct (simple_escape a) as [x|]; [|split; discriminate].
  rewrite Ascii.eqb_eq. split; [by intros [= ->]|by intros ->].
Qed.

(** ** Characters of several bytes *)

Lemma seq2_utf8 a b : seq2 a b = true -> exists n, scalar_value n /\ (128 <= n)%N /\ utf8 n = String a (str1 b).
Proof.
  unfold seq2, in_range, cont. intros H. exists (cp2 a b).
  assert (Hn : (128 <= cp2 a b < 2048)%N) by (unfold cp2; lia).
  split; [unfold scalar_value; lia|]. split; [lia|]. unfold utf8, byte.
  replace (cp2 a b <? 0x80)%N with false by lia. replace (cp2 a b <? 0x800)%N with true by lia.
  unfold str1. f_equal; [|f_equal]; symmetry; apply chr_ord_eq; unfold cp2; lia.
Qed.
Lemma seq3_utf8 a b c : seq3 a b c = true -> exists n, scalar_value n /\ (128 <= n)%N /\ utf8 n = String a (String b (str1 c)).
Proof.
  unfold seq3, in_range, cont. intros H. exists (cp3 a b c).
  assert (Hn : (2048 <= cp3 a b c < 65536 /\ ~ (0xD800 <= cp3 a b c < 0xE000))%N).
  { unfold cp3. repeat (destruct (_ =? _)%N eqn:? in H; cbn [andb orb] in H); lia. }
  split; [unfold scalar_value; lia|]. split; [lia|]. unfold utf8, byte.
  replace (cp3 a b c <? 0x80)%N with false by lia. replace (cp3 a b c <? 0x800)%N with false by lia. replace (cp3 a b c <? 0x10000)%N with true by lia.
  assert (Hr : (224 <= ord a <= 239 /\ 128 <= ord b <= 191 /\ 128 <= ord c <= 191)%N).
  { repeat (destruct (_ =? _)%N eqn:? in H; cbn [andb orb] in H); lia. }
  unfold str1. f_equal; [|f_equal; [|f_equal]]; symmetry; apply chr_ord_eq; unfold cp3; lia.
Qed.
Lemma seq4_utf8 a b c d : seq4 a b c d = true ->
  exists n, scalar_value n /\ (128 <= n)%N /\ utf8 n = String a (String b (String c (str1 d))).
Proof.
  unfold seq4, in_range, cont. intros H. exists (cp4 a b c d).
  assert (Hn : (65536 <= cp4 a b c d < 0x110000)%N).
  { unfold cp4. repeat (destruct (_ =? _)%N eqn:? in H; cbn [andb orb] in H); lia. }
  split; [unfold scalar_value; lia|]. split; [lia|]. unfold utf8, byte.
  replace (cp4 a b c d <? 0x80)%N with false by lia. replace (cp4 a b c d <? 0x800)%N with false by lia. replace (cp4 a b c d <? 0x10000)%N with false by lia.
  assert (Hr : (240 <= ord a <= 244 /\ 128 <= ord b <= 191 /\ 128 <= ord c <= 191 /\ 128 <= ord d <= 191)%N).
  { repeat (destruct (_ =? _)%N eqn:? in H; cbn [andb orb] in H); lia. }
  unfold str1. f_equal; [|f_equal; [|f_equal; [|f_equal]]]; symmetry; apply chr_ord_eq; unfold cp4; lia.
Qed.

(** A byte that begins no character of the text behind it. *)
Definition stray (a : ascii) (s : string) : Prop := forall n t, scalar_value n -> String a s <> utf8 n +:+ t.

Lemma stray_or_char a r : (128 <= ord a)%N ->
  (exists n t, scalar_value n /\ (128 <= n)%N /\ String a r = utf8 n +:+ t) \/ stray a r.
Proof.
  intros Ha.
  assert (Hs : (forall b r1, r = String b r1 -> seq2 a b = false) ->
    (forall b c r2, r = String b (String c r2) -> seq3 a b c = false) ->
    (forall b c d r3, r = String b (String c (String d r3)) -> seq4 a b c d = false) -> stray a r).
  { intros H2 H3 H4 n t Hn E. destruct (N.lt_ge_cases n 128) as [Hl|Hl].
    { rewrite utf8_ascii in E by done. injection E as -> _. rewrite ord_chr in Ha by lia. lia. }
    destruct (utf8_multi n Hn Hl) as [x y Hu|x y z Hu|x y z w Hu]; rewrite Hu in E; injection E as <- E; subst r.
    - by rewrite (H2 y t eq_refl) in *.
    - by rewrite (H3 y z t eq_refl) in *.
    - by rewrite (H4 y z w t eq_refl) in *. }
  destruct r as [|b r1]; [right; by apply Hs|].
  destruct (seq2 a b) eqn:E2.
  { left. destruct (seq2_utf8 _ _ E2) as (n & ? & ? & Hu). exists n, r1. by rewrite Hu. }
  destruct r1 as [|c r2]; [right; apply Hs; [by intros ? ? [= <- <-]|done..]|].
  destruct (seq3 a b c) eqn:E3.
  { left. destruct (seq3_utf8 _ _ _ E3) as (n & ? & ? & Hu). exists n, r2. by rewrite Hu. }
  destruct r2 as [|d r3]; [right; apply Hs; [by intros ? ? [= <- <-]|by intros ? ? ? [= <- <- <-]|done]|].
  destruct (seq4 a b c d) eqn:E4.
  { left. destruct (seq4_utf8 _ _ _ _ E4) as (n & ? & ? & Hu). exists n, r3. by rewrite Hu. }
  right. apply Hs; [by intros ? ? [= <- <-]|by intros ? ? ? [= <- <- <-]|by intros ? ? ? ? [= <- <- <- <-]].
Qed.

Lemma stray_shorter a s t : stray a (s +:+ t) -> stray a s.
Proof. intros H n x Hn E. apply (H n (x +:+ t) Hn). by rewrite <- app_assoc_s, <- E, app_cons_s. Qed.
Lemma stray_longer a s t : (128 <= ord a)%N -> stray a s -> stray a (s +:+ String quote t).
Proof.
  intros Ha H n x Hn E. destruct (N.lt_ge_cases n 128) as [Hl|Hl].
  { rewrite utf8_ascii in E by done. injection E as -> _. rewrite ord_chr in Ha by lia. lia. }
  assert (Hq : forall y, (ord y <? 128)%N = false -> quote <> y) by (intros y Hy <-; discriminate Hy).
  destruct (utf8_multi n Hn Hl) as [p b Hu ? Hb|p b c Hu ? Hb Hc|p b c d Hu ? Hb Hc Hd]; rewrite Hu in E; injection E as <- E.
  - destruct s as [|b' s]; [injection E as E _; by apply Hq in Hb|]. rewrite app_cons_s in E. injection E as -> _.
    apply (H n s Hn). by rewrite Hu.
  - destruct s as [|b' s]; [injection E as E _; by apply Hq in Hb|]. rewrite app_cons_s in E. injection E as -> E.
    destruct s as [|c' s]; [injection E as E _; by apply Hq in Hc|]. rewrite app_cons_s in E. injection E as -> _.
    apply (H n s Hn). by rewrite Hu.
  - destruct s as [|b' s]; [injection E as E _; by apply Hq in Hb|]. rewrite app_cons_s in E. injection E as -> E.
    destruct s as [|c' s]; [injection E as E _; by apply Hq in Hc|]. rewrite app_cons_s in E. injection E as -> E.
    destruct s as [|d' s]; [injection E as E _; by apply Hq in Hd|]. rewrite app_cons_s in E. injection E as -> _.
    apply (H n s Hn). by rewrite Hu.
Qed.

(** ** Scanned elements and pieces *)

Definition no_seq (a : ascii) (k : list jchar) : bool :=
  match k with
  | CByte b :: k1 => negb (seq2 a b) &&
      match k1 with
      | CByte c :: k2 => negb (seq3 a b c) &&
          match k2 with CByte d :: _ => negb (seq4 a b c d) | _ => true end
      | _ => true
      end
  | _ => true
  end.
Definition raw (n : N) : list jchar := map CByte (list_ascii_of_string (utf8 n)).

Inductive pieces : list piece -> list jchar -> Prop :=
| pieces_nil : pieces [] []
| pieces_char n l k : scalar_value n -> pieces l k -> pieces (Char n :: l) (raw n ++ k)
| pieces_bad a l k : (128 <= ord a)%N -> no_seq a k = true -> pieces l k -> pieces (Char 0xfffd :: l) (CByte a :: k)
| pieces_unit v l k : pieces l k -> pieces (Unit v :: l) (CUnit v :: k).

Lemma unquote_raw n k : scalar_value n -> unquote (raw n ++ k) = utf8 n +:+ unquote k.
Proof.
  intros Hs. unfold raw. destruct (N.lt_ge_cases n 128) as [Hn|Hn].
  - rewrite utf8_ascii by done. unfold str1. cbn [list_ascii_of_string map app unquote]. rewrite ord_chr by lia.
    by replace (n <? 128)%N with true by lia.
  - destruct (utf8_multi n Hs Hn) as [a b -> ? ? ? _|a b c -> ? ? ? ? ? _|a b c d -> ? ? ? ? ? ? ? _].
    + cbn [list_ascii_of_string map app unquote str1]. by rewrite H, H1.
    + cbn [list_ascii_of_string map app unquote str1]. by rewrite H, H2, H3.
    + cbn [list_ascii_of_string map app unquote str1]. by rewrite H, H3, H4, H5.
Qed.
Lemma unquote_bad a k : (128 <= ord a)%N -> no_seq a k = true -> unquote (CByte a :: k) = utf8 0xfffd +:+ unquote k.
Proof.
  intros Ha Hn. rewrite <- utf8_encode_spec. change 0xfffd%N with rune_error.
  assert (E : (ord a <? 128)%N = false) by lia.
  destruct k as [|[b|u] k1]; cbn [unquote]; rewrite E; [done| |done].
  cbn [no_seq] in Hn. apply andb_true_iff in Hn as [H2 Hn]. apply negb_true_iff in H2. rewrite H2.
  destruct k1 as [|[c|u] k2]; [done| |done]. apply andb_true_iff in Hn as [H3 Hn]. apply negb_true_iff in H3. rewrite H3.
  destruct k2 as [|[d|u] k3]; [done| |done]. apply negb_true_iff in Hn. by rewrite Hn.
Qed.

Lemma unquote_pieces l k : pieces l k -> unquote k = text_of l.
Proof.
  remember (length l) as m eqn:Hl. revert l k Hl. induction (lt_wf m) as [m _ IH]. intros l k Hl H.
  assert (IH' : forall l' k', length l' < length l -> pieces l' k' -> unquote k' = text_of l').
  { intros l' k' H1 H2. subst m. by eapply IH. }
  clear IH Hl. unfold text_of in *. destruct H as [|n l k Hs H|a l k Ha Hn H|v l k H].
  - reflexivity.
  - rewrite unquote_raw by done. cbn [characters map concat_all fold_right]. rewrite (IH' l k) by (cbn; lia || done). done.
  - rewrite unquote_bad by done. cbn [characters map concat_all fold_right]. rewrite (IH' l k) by (cbn; lia || done). done.
  - assert (Hone : forall x, utf8_encode x +:+ unquote k = concat_all (map utf8 (x :: characters l))).
    { intros x. cbn [map concat_all fold_right]. rewrite (IH' l k) by (cbn; lia || done). by rewrite utf8_encode_spec. }
    cbn [unquote characters]. unfold is_surrogate, is_high, is_low.
    change 55296%N with 0xd800%N. change 57344%N with 0xe000%N. change 56320%N with 0xdc00%N.
    destruct ((0xd800 <=? v) && (v <? 0xe000))%N eqn:Es.
    + destruct H as [|n l k Hs H|a l k Ha Hn H|t l k H].
      * apply (Hone rune_error).
      * assert (exists b k', (raw n ++ k)%list = CByte b :: k') as (b & k' & Er).
        { unfold raw. destruct (utf8 n) as [|b s] eqn:E; [|by eexists _, _].
          unfold utf8 in E. repeat (destruct (_ <? _)%N in E; try discriminate E). }
        rewrite Er in Hone |- *. apply (Hone rune_error).
      * apply (Hone rune_error).
      * destruct ((0xd800 <=? v) && (v <? 0xdc00) && ((0xdc00 <=? t) && (t <? 0xe000)))%N eqn:Ep.
        -- replace ((0xd800 <=? v) && (v <? 0xdc00) && (0xdc00 <=? t) && (t <? 0xe000))%N with true by lia.
           cbn [map concat_all fold_right]. rewrite (IH' l k) by (cbn; lia || done). rewrite utf8_encode_spec.
           f_equal. f_equal. lia.
        -- replace ((0xd800 <=? v) && (v <? 0xdc00) && (0xdc00 <=? t) && (t <? 0xe000))%N with false by lia.
           apply (Hone rune_error).
    + assert (Hg : utf8_encode v +:+ unquote k = concat_all (map utf8 (v :: characters l))) by apply Hone.
      rewrite Hg. destruct H as [|n l k Hs H|a l k Ha Hn H|t l k H]; try reflexivity.
      replace ((0xd800 <=? v) && (v <? 0xdc00) && (0xdc00 <=? t) && (t <? 0xe000))%N with false by lia. reflexivity.
Qed.

(** ** Scanning *)

Lemma scan_plain a r : (32 <= ord a)%N -> a <> quote -> a <> bslash -> scan_string (String a r) = prepend [CByte a] (scan_string r).
Proof.
  intros H Hq Hb. cbn [scan_string]. apply Ascii.eqb_neq in Hq, Hb. rewrite Hq, Hb.
  replace (ord a <? 32)%N with false by lia. by destruct (scan_string r) as [[? ?]|].
Qed.
Lemma scan_raw n r : scalar_value n -> (32 <= n)%N -> n <> 34%N -> n <> 92%N ->
  scan_string (utf8 n +:+ r) = prepend (raw n) (scan_string r).
Proof.
  intros Hs H1 H2 H3. unfold raw. destruct (N.lt_ge_cases n 128) as [Hn|Hn].
  - rewrite utf8_ascii by done. unfold str1. rewrite app_cons_s, app_nil_s. cbn [list_ascii_of_string map].
    apply scan_plain; [rewrite ord_chr by lia; lia| |].
    + intros E. apply H2. apply (f_equal ord) in E. rewrite ord_chr in E by lia. exact E.
    + intros E. apply H3. apply (f_equal ord) in E. rewrite ord_chr in E by lia. exact E.
  - destruct (utf8_multi n Hs Hn) as [a b -> ? ? ? _|a b c -> ? ? ? ? ? _|a b c d -> ? ? ? ? ? ? ? _];
      unfold str1; rewrite !app_cons_s, app_nil_s, !scan_high, !prepend_prepend by done; done.
Qed.
Lemma scan_escape e b r : simple_escape e = Some b -> scan_string (String bslash (String e r)) = prepend [CByte b] (scan_string r).
Proof.
  intros H. cbn [scan_string]. change (Ascii.eqb bslash quote) with false. rewrite Ascii.eqb_refl. cbn iota.
  assert (Ascii.eqb e "u" = false) as ->.
  { destruct (Ascii.eqb_spec e "u") as [->|]; [|done]. vm_compute in H. discriminate H. }
  rewrite H. by destruct (scan_string r) as [[? ?]|].
Qed.
Lemma scan_unit h1 h2 h3 h4 v1 v2 v3 v4 r : hex_digit h1 v1 -> hex_digit h2 v2 -> hex_digit h3 v3 -> hex_digit h4 v4 ->
  scan_string (String bslash (String "u" (String h1 (String h2 (String h3 (String h4 r)))))) =
  prepend [CUnit (v1 * 4096 + v2 * 256 + v3 * 16 + v4)] (scan_string r).
Proof.
  intros H1 H2 H3 H4. apply hex_val_spec in H1, H2, H3, H4. cbn [scan_string]. change (Ascii.eqb bslash quote) with false.
  rewrite !Ascii.eqb_refl. cbn iota. rewrite H1, H2, H3, H4. by destruct (scan_string r) as [[? ?]|].
Qed.

(** A byte of a character is scanned from that byte. *)
Lemma scan_high_head s b k rest : scan_string s = Some (CByte b :: k, rest) -> (128 <= ord b)%N ->
  exists r, s = String b r /\ scan_string r = Some (k, rest).
Proof.
  intros H Hb. destruct s as [|a r]; [done|]. cbn [scan_string] in H.
  destruct (Ascii.eqb a quote); [done|]. destruct (Ascii.eqb a bslash).
  - exfalso. destruct r as [|e r1]; [done|]. destruct (Ascii.eqb e "u").
    + destruct r1 as [|? [|? [|? [|? r2]]]]; try done.
      repeat (destruct (hex_val _); [|done]). destruct (scan_string r2) as [[? ?]|]; done.
    + destruct (simple_escape e) as [x|] eqn:E; [|done]. destruct (scan_string r1) as [[? ?]|]; [|done].
      injection H as -> _ _. apply simple_escape_spec in E. cbn [In escapes] in E. fold (ord b) in E.
      repeat (destruct E as [E|E]; [injection E as _ E; lia|]). done.
  - destruct (ord a <? 32)%N; [done|]. destruct (scan_string r) as [[l r']|] eqn:E; [|done].
    injection H as -> -> ->. by exists r.
Qed.
Lemma stray_no_seq a r k rest : scan_string r = Some (k, rest) -> stray a r -> no_seq a k = true.
Proof.
  intros H Hst. destruct k as [|[b|u] k1]; [done| |done]. cbn [no_seq].
  assert (Hcont : forall x, cont x = true -> (128 <= ord x)%N) by (intros x; unfold cont; lia).
  assert (H2 : seq2 a b = false).
  { destruct (seq2 a b) eqn:E; [|done]. exfalso. pose proof E as E'. unfold seq2 in E'. apply andb_true_iff in E' as [_ E'].
    destruct (scan_high_head _ _ _ _ H (Hcont _ E')) as (r1 & -> & _).
    destruct (seq2_utf8 _ _ E) as (n & Hn & _ & Hu). apply (Hst n r1 Hn). by rewrite Hu. }
  rewrite H2. cbn [negb andb]. destruct k1 as [|[c|u] k2]; [done| |done].
  assert (Hb3 : forall c, seq3 a b c = true -> (128 <= ord b)%N /\ (128 <= ord c)%N).
  { intros x. unfold seq3, in_range, cont. intros E. repeat (destruct (_ =? _)%N eqn:? in E; cbn [andb orb] in E); lia. }
  assert (H3 : seq3 a b c = false).
  { destruct (seq3 a b c) eqn:E; [|done]. exfalso. destruct (Hb3 c E) as [Hb Hc].
    destruct (scan_high_head _ _ _ _ H Hb) as (r1 & -> & Hr1). destruct (scan_high_head _ _ _ _ Hr1 Hc) as (r2 & -> & _).
    destruct (seq3_utf8 _ _ _ E) as (n & Hn & _ & Hu). apply (Hst n r2 Hn). by rewrite Hu. }
  rewrite H3. cbn [negb andb]. destruct k2 as [|[d|u] k3]; [done| |done].
  destruct (seq4 a b c d) eqn:E; [|done]. exfalso.
  assert (Hb4 : (128 <= ord b)%N /\ (128 <= ord c)%N /\ (128 <= ord d)%N).
  { unfold seq4, in_range, cont in E. repeat (destruct (_ =? _)%N eqn:? in E; cbn [andb orb] in E); lia. }
  destruct Hb4 as (Hb & Hc & Hd). destruct (scan_high_head _ _ _ _ H Hb) as (r1 & -> & Hr1).
  destruct (scan_high_head _ _ _ _ Hr1 Hc) as (r2 & -> & Hr2). destruct (scan_high_head _ _ _ _ Hr2 Hd) as (r3 & -> & _).
  destruct (seq4_utf8 _ _ _ _ E) as (n & Hn & _ & Hu). apply (Hst n r3 Hn). by rewrite Hu.
Qed.

Lemma escape_scalar a n : In (a, n) escapes -> (n < 128)%N.
Proof. cbn [escapes In]. intros H. repeat (destruct H as [H|H]; [injection H as _ <-; lia|]). done. Qed.

(** What is described is scanned, *)
Lemma quoted_scan s l : quoted s l -> forall rest, exists k, scan_string (s +:+ String quote rest) = Some (k, rest) /\ pieces l k.
Proof.
  induction 1 as [|n s l Hn H1 H2 H3 H IH|a s l Ha Hst H IH|a n s l He H IH|h1 h2 h3 h4 v1 v2 v3 v4 s l E1 E2 E3 E4 H IH]; intros rest.
  - exists []. split; [done|constructor].
  - destruct (IH rest) as (k & Hk & Hp). eexists. rewrite app_assoc_s, scan_raw, Hk by done. split; [reflexivity|]. by constructor.
  - destruct (IH rest) as (k & Hk & Hp). exists (CByte a :: k). rewrite app_cons_s, scan_high, Hk by (unfold ord in *; lia). split; [reflexivity|].
    constructor; [done| |done]. eapply stray_no_seq; [exact Hk|]. by apply stray_longer.
  - destruct (IH rest) as (k & Hk & Hp). pose proof (escape_scalar _ _ He) as Hlt.
    assert (Hb : simple_escape a = Some (chr n)). { apply simple_escape_spec. fold (ord (chr n)). rewrite ord_chr by lia. done. }
    exists (raw n ++ k)%list. rewrite !app_cons_s. change back with bslash. rewrite (scan_escape _ _ _ Hb), Hk. split.
    + cbn [prepend]. unfold raw. by rewrite utf8_ascii by done.
    + constructor; [unfold scalar_value; lia|done].
  - destruct (IH rest) as (k & Hk & Hp). eexists. rewrite !app_cons_s. change back with bslash.
    rewrite (scan_unit _ _ _ _ _ _ _ _ _ E1 E2 E3 E4), Hk. split; [reflexivity|]. by constructor.
Qed.

(** and what is scanned is described. *)
Lemma scan_quoted s k rest : scan_string s = Some (k, rest) ->
  exists c l, s = c +:+ String quote rest /\ quoted c l /\ pieces l k.
Proof.
  remember (slen s) as m eqn:Hm. revert s k Hm. induction (lt_wf m) as [m _ IH]. intros s k Hm H.
  assert (IH' : forall r k', slen r < slen s -> scan_string r = Some (k', rest) ->
    exists c l, r = c +:+ String quote rest /\ quoted c l /\ pieces l k').
  { intros r k' Hr. subst m. by apply (IH (slen r)). }
  clear IH Hm. destruct s as [|a r]; [done|].
  destruct (Ascii.eqb_spec a quote) as [->|Hq].
  { cbn [scan_string] in H. rewrite Ascii.eqb_refl in H. injection H as <- <-. exists "", []. split; [done|]. split; constructor. }
  destruct (Ascii.eqb_spec a bslash) as [->|Hb].
  { cbn [scan_string] in H. change (Ascii.eqb bslash quote) with false in H. rewrite Ascii.eqb_refl in H. cbn iota in H.
    destruct r as [|e r1]; [done|]. destruct (Ascii.eqb_spec e "u") as [->|Hu].
    - destruct r1 as [|h1 [|h2 [|h3 [|h4 r2]]]]; try done.
      destruct (hex_val h1) as [v1|] eqn:E1; [|done]. destruct (hex_val h2) as [v2|] eqn:E2; [|done].
      destruct (hex_val h3) as [v3|] eqn:E3; [|done]. destruct (hex_val h4) as [v4|] eqn:E4; [|done].
      destruct (scan_string r2) as [[k2 rest2]|] eqn:E; [|done]. injection H as <- ->.
      destruct (IH' r2 k2) as (c & l & -> & Hc & Hp); [cbn; lia|done|]. apply hex_val_spec in E1, E2, E3, E4.
      eexists _, _. split; [|split; [eapply quoted_unit; [exact E1|exact E2|exact E3|exact E4|exact Hc]|by constructor]]. by rewrite !app_cons_s.
    - destruct (simple_escape e) as [x|] eqn:Ex; [|done].
      destruct (scan_string r1) as [[k2 rest2]|] eqn:E; [|done]. injection H as <- ->.
      destruct (IH' r1 k2) as (c & l & -> & Hc & Hp); [cbn; lia|done|]. apply simple_escape_spec in Ex.
      pose proof (escape_scalar _ _ Ex) as Hlt. fold (ord x) in *.
      exists (String back (String e c)), (Char (ord x) :: l). split; [by rewrite !app_cons_s|]. split; [by apply quoted_escape|].
      replace (CByte x :: k2) with (raw (ord x) ++ k2)%list.
      + constructor; [unfold scalar_value; lia|done].
      + unfold raw. rewrite utf8_ascii by done. unfold ord. cbn [str1 list_ascii_of_string map app]. by rewrite ascii_N_embedding. }
  destruct (N.lt_ge_cases (ord a) 128) as [Ha|Ha].
  - cbn [scan_string] in H. apply Ascii.eqb_neq in Hq as Hq', Hb as Hb'. rewrite Hq', Hb' in H.
    destruct (ord a <? 32)%N eqn:E32; [done|]. destruct (scan_string r) as [[k2 rest2]|] eqn:E; [|done]. injection H as <- ->.
    destruct (IH' r k2) as (c & l & -> & Hc & Hp); [cbn; lia|done|].
    assert (Hu : utf8 (ord a) = str1 a). { rewrite utf8_ascii by done. unfold ord. by rewrite ascii_N_embedding. }
    exists (utf8 (ord a) +:+ c), (Char (ord a) :: l). split; [by rewrite Hu|]. split.
    + constructor; [unfold scalar_value; lia|lia| | |done].
      * intros E'. apply Hq. apply (chr_ord_eq a 34). exact E'.
      * intros E'. apply Hb. apply (chr_ord_eq a 92). exact E'.
    + replace (CByte a :: k2) with (raw (ord a) ++ k2)%list by (unfold raw; by rewrite Hu).
      constructor; [unfold scalar_value; lia|done].
  - destruct (stray_or_char a r Ha) as [(n & t & Hs & Hn & E)|Hst].
    + rewrite E, scan_raw in H by (done || lia). destruct (scan_string t) as [[k2 rest2]|] eqn:Et; [|done]. injection H as <- ->.
      destruct (IH' t k2) as (c & l & -> & Hc & Hp); [|done|].
      { rewrite E, slen_app. assert (1 <= slen (utf8 n)); [|lia]. destruct (utf8_multi n Hs Hn) as [? ? ->|? ? ? ->|? ? ? ? ->]; cbn; lia. }
      exists (utf8 n +:+ c), (Char n :: l). split; [by rewrite E, app_assoc_s|]. split; constructor; (done || lia).
    + rewrite scan_high in H by lia. destruct (scan_string r) as [[k2 rest2]|] eqn:Er; [|done]. injection H as <- ->.
      destruct (IH' r k2) as (c & l & -> & Hc & Hp); [cbn; lia|done|].
      exists (String a c), (Char 0xfffd :: l). split; [by rewrite app_cons_s|]. split.
      * constructor; [done| |done]. by eapply stray_shorter.
      * cbn [app]. constructor; [done| |done]. by eapply stray_no_seq.
Qed.
