(** Encoding followed by decoding. *)
From Verif.Model Require Import GoStr Json.
From Verif.Spec Require Import ScopeSpec.
From Verif.Proof Require Import StrFacts DecFacts.
From Coq Require Import ZifyBool ZifyNat ZifyN.
Ltac Zify.zify_post_hook ::= Z.div_mod_to_equations.

(** ** UTF-8 *)

Lemma utf8_encode_spec n : utf8_encode n = utf8 n.
Proof. reflexivity. Qed.

Lemma runes_ascii a r : (ord a < 128)%N -> runes (String a r) = Some (ord a) :: runes r.
Proof. intros H. cbn [runes]. replace (ord a <? 128)%N with true by lia. done. Qed.
Lemma runes_2 a b r : (ord a <? 128)%N = false -> seq2 a b = true ->
  runes (String a (String b r)) = Some (cp2 a b) :: runes r.
Proof. intros H1 H2. cbn [runes]. by rewrite H1, H2. Qed.
Lemma runes_3 a b c r : (ord a <? 128)%N = false -> seq2 a b = false -> seq3 a b c = true ->
  runes (String a (String b (String c r))) = Some (cp3 a b c) :: runes r.
Proof. intros H1 H2 H3. cbn [runes]. by rewrite H1, H2, H3. Qed.
Lemma runes_4 a b c d r : (ord a <? 128)%N = false -> seq2 a b = false -> seq3 a b c = false ->
  seq4 a b c d = true ->
  runes (String a (String b (String c (String d r)))) = Some (cp4 a b c d) :: runes r.
Proof. intros H1 H2 H3 H4. cbn [runes]. by rewrite H1, H2, H3, H4. Qed.

(** The bytes of a multi-byte encoding and the tests they pass. *)
Inductive multi (n : N) : Prop :=
| Multi2 a b : utf8 n = String a (str1 b) -> (ord a <? 128)%N = false -> (ord b <? 128)%N = false ->
    seq2 a b = true -> cp2 a b = n -> multi n
| Multi3 a b c : utf8 n = String a (String b (str1 c)) -> (ord a <? 128)%N = false ->
    (ord b <? 128)%N = false -> (ord c <? 128)%N = false ->
    seq2 a b = false -> seq3 a b c = true -> cp3 a b c = n -> multi n
| Multi4 a b c d : utf8 n = String a (String b (String c (str1 d))) -> (ord a <? 128)%N = false ->
    (ord b <? 128)%N = false -> (ord c <? 128)%N = false -> (ord d <? 128)%N = false ->
    seq2 a b = false -> seq3 a b c = false -> seq4 a b c d = true -> cp4 a b c d = n -> multi n.

Lemma utf8_multi n : scalar_value n -> (128 <= n)%N -> multi n.
Proof.
  intros Hs Hn. unfold scalar_value in Hs. unfold utf8, byte.
  fold chr in *.
  destruct (N.ltb_spec n 0x80) as [|_]; [lia|].
  destruct (N.ltb_spec n 0x800) as [H2|H2]; [|destruct (N.ltb_spec n 0x10000) as [H3|H3]].
  - eapply (Multi2 n (chr (192 + n / 64)) (chr (128 + n mod 64))).
    + unfold utf8. replace (n <? 0x80)%N with false by lia. by replace (n <? 0x800)%N with true by lia.
    + rewrite ord_chr by lia. lia.
    + rewrite ord_chr by lia. lia.
    + unfold seq2, in_range, cont. rewrite !ord_chr by lia. lia.
    + unfold cp2. rewrite !ord_chr by lia. lia.
  - assert (Ha : (n / 4096 < 16)%N) by lia.
    assert (Hb : (n / 64 mod 64 < 64)%N) by lia.
    assert (Hc : (n mod 64 < 64)%N) by lia.
    eapply (Multi3 n (chr (224 + n / 4096)) (chr (128 + n / 64 mod 64)) (chr (128 + n mod 64))).
    + unfold utf8. replace (n <? 0x80)%N with false by lia. replace (n <? 0x800)%N with false by lia.
      by replace (n <? 0x10000)%N with true by lia.
    + rewrite ord_chr by lia. lia.
    + rewrite ord_chr by lia. lia.
    + rewrite ord_chr by lia. lia.
    + unfold seq2, in_range, cont. rewrite !ord_chr by lia. lia.
    + unfold seq3, in_range, cont. rewrite !ord_chr by lia.
      destruct (N.eqb_spec (224 + n / 4096) 224); [lia|].
      destruct (N.eqb_spec (224 + n / 4096) 237); lia.
    + unfold cp3. rewrite !ord_chr by lia. lia.
  - assert (Ha : (n / 262144 < 5)%N) by lia.
    assert (Hb : (n / 4096 mod 64 < 64)%N) by lia.
    assert (Hb' : (n / 64 mod 64 < 64)%N) by lia.
    assert (Hc : (n mod 64 < 64)%N) by lia.
    eapply (Multi4 n (chr (240 + n / 262144)) (chr (128 + n / 4096 mod 64))
              (chr (128 + n / 64 mod 64)) (chr (128 + n mod 64))).
    + unfold utf8. replace (n <? 0x80)%N with false by lia. replace (n <? 0x800)%N with false by lia.
      by replace (n <? 0x10000)%N with false by lia.
    + rewrite ord_chr by lia. lia.
    + rewrite ord_chr by lia. lia.
    + rewrite ord_chr by lia. lia.
    + rewrite ord_chr by lia. lia.
    + unfold seq2, in_range, cont. rewrite !ord_chr by lia. lia.
    + unfold seq3, in_range, cont. rewrite !ord_chr by lia.
      destruct (N.eqb_spec (240 + n / 262144) 224); [lia|].
      destruct (N.eqb_spec (240 + n / 262144) 237); lia.
    + unfold seq4, in_range, cont. rewrite !ord_chr by lia.
      destruct (N.eqb_spec (240 + n / 262144) 240); [lia|].
      destruct (N.eqb_spec (240 + n / 262144) 244); lia.
    + unfold cp4. rewrite !ord_chr by lia. lia.
Qed.

Lemma utf8_ascii n : (n < 128)%N -> utf8 n = str1 (chr n).
Proof. intros H. unfold utf8. by replace (n <? 0x80)%N with true by lia. Qed.

Lemma runes_utf8 n r : scalar_value n -> runes (utf8 n +:+ r) = Some n :: runes r.
Proof.
  intros Hs. destruct (N.lt_ge_cases n 128) as [Hn|Hn].
  - rewrite utf8_ascii by done. change (str1 ?a +:+ r) with (String a r).
    rewrite runes_ascii; rewrite ord_chr by lia; [done|lia].
  - destruct (utf8_multi n Hs Hn) as [a b -> ? ? ? <-|a b c -> ? ? ? ? ? <-|a b c d -> ? ? ? ? ? ? ? <-];
      unfold str1; rewrite !app_cons_s, app_nil_s.
    + by apply runes_2.
    + by apply runes_3.
    + by apply runes_4.
Qed.

Lemma runes_valid cps : Forall scalar_value cps ->
  runes (concat_all (map utf8 cps)) = map Some cps.
Proof.
  induction 1 as [|n cps Hn Hc IH]; [done|]. cbn [map concat_all fold_right].
  unfold concat_all in IH. rewrite runes_utf8 by done. by rewrite IH.
Qed.

(** ** String literals *)

Definition prepend (l : list jchar) (x : option (list jchar * string)) :=
  match x with Some (k, rest) => Some ((l ++ k)%list, rest) | None => None end.

Lemma prepend_prepend l k x : prepend l (prepend k x) = prepend (l ++ k) x.
Proof. destruct x as [[? ?]|]; [|done]. cbn. by rewrite <- app_assoc. Qed.

Lemma scan_high a r : (ord a <? 128)%N = false -> scan_string (String a r) = prepend [CByte a] (scan_string r).
Proof.
  intros H. cbn [scan_string].
  assert (Hq : Ascii.eqb a quote = false).
  { destruct (Ascii.eqb_spec a quote) as [->|]; [|done]. discriminate. }
  assert (Hb : Ascii.eqb a bslash = false).
  { destruct (Ascii.eqb_spec a bslash) as [->|]; [|done]. discriminate. }
  rewrite Hq, Hb. replace (ord a <? 32)%N with false by lia.
  by destruct (scan_string r) as [[? ?]|].
Qed.

(** The elements a rune is scanned to. *)
Definition rune_chars (n : N) : list jchar :=
  if (n <? 128)%N then
    if ((n =? 92) || (n =? 34) || (n =? 10) || (n =? 13) || (n =? 9))%N then [CByte (chr n)]
    else if ((n <? 32) || (n =? 60) || (n =? 62) || (n =? 38))%N then [CUnit n]
    else [CByte (chr n)]
  else if ((n =? 8232) || (n =? 8233))%N then [CUnit n]
  else map CByte (list_ascii_of_string (utf8 n)).

Ltac compute_scan :=
  match goal with |- context [json_rune ?x] =>
    let v := eval vm_compute in (json_rune x) in change (json_rune x) with v end;
  match goal with |- context [rune_chars ?x] =>
    let v := eval vm_compute in (rune_chars x) in change (rune_chars x) with v end;
  rewrite ?app_cons_s, app_nil_s; cbn [scan_string];
  repeat match goal with
  | |- context [if ?b then _ else _] => let v := eval vm_compute in b in change b with v; cbv iota
  | |- context [hex_val ?x] => let v := eval vm_compute in (hex_val x) in change (hex_val x) with v; cbv iota
  | |- context [simple_escape ?x] =>
      let v := eval vm_compute in (simple_escape x) in change (simple_escape x) with v; cbv iota
  end.

Lemma scan_rune n r : scalar_value n ->
  scan_string (json_rune (Some n) +:+ r) = prepend (rune_chars n) (scan_string r).
Proof.
  intros Hs. destruct (N.lt_ge_cases n 128) as [Hn|Hn].
  - rewrite <- (ord_chr n) by lia. assert (Hc : (ord (chr n) < 128)%N) by (rewrite ord_chr; lia).
    revert Hc. generalize (chr n). clear n Hs Hn. intros a.
    destruct a as [[] [] [] [] [] [] [] []]; intros Ha; try (vm_compute in Ha; discriminate);
      compute_scan; by destruct (scan_string r) as [[? ?]|].
  - unfold json_rune, rune_chars. replace (n <? 128)%N with false by lia.
    destruct (N.eqb_spec n 8232) as [->|].
    { change (scan_string (json_rune (Some 8232%N) +:+ r) = prepend (rune_chars 8232) (scan_string r)).
      compute_scan. by destruct (scan_string r) as [[? ?]|]. }
    destruct (N.eqb_spec n 8233) as [->|].
    { change (scan_string (json_rune (Some 8233%N) +:+ r) = prepend (rune_chars 8233) (scan_string r)).
      compute_scan. by destruct (scan_string r) as [[? ?]|]. }
    cbn [orb]. rewrite utf8_encode_spec.
    destruct (utf8_multi n Hs Hn) as [a b -> ? ? ? _|a b c -> ? ? ? ? ? _|a b c d -> ? ? ? ? ? ? ? _];
      unfold str1; rewrite !app_cons_s, app_nil_s, !scan_high, !prepend_prepend by done; done.
Qed.

Lemma unquote_rune n l : scalar_value n -> unquote (rune_chars n ++ l) = utf8 n +:+ unquote l.
Proof.
  intros Hs. destruct (N.lt_ge_cases n 128) as [Hn|Hn].
  - rewrite utf8_ascii by done. unfold rune_chars. replace (n <? 128)%N with true by lia.
    assert (Hb : unquote ([CByte (chr n)] ++ l) = str1 (chr n) +:+ unquote l).
    { cbn [app unquote]. rewrite ord_chr by lia. by replace (n <? 128)%N with true by lia. }
    assert (Hu : unquote ([CUnit n] ++ l) = str1 (chr n) +:+ unquote l).
    { cbn [app unquote]. unfold is_surrogate. replace (_ && _) with false by lia.
      unfold utf8_encode. by replace (n <? 128)%N with true by lia. }
    destruct (_ || _); [done|]. by destruct (_ || _).
  - unfold rune_chars. replace (n <? 128)%N with false by lia.
    destruct ((n =? 8232) || (n =? 8233))%N eqn:E.
    + cbn [app unquote]. unfold is_surrogate. replace (_ && _) with false by lia. done.
    + destruct (utf8_multi n Hs Hn) as [a b -> ? ? ? _|a b c -> ? ? ? ? ? _|a b c d -> ? ? ? ? ? ? ? _].
      * cbn [list_ascii_of_string map app unquote str1]. by rewrite H, H1.
      * cbn [list_ascii_of_string map app unquote str1]. by rewrite H, H2, H3.
      * cbn [list_ascii_of_string map app unquote str1]. by rewrite H, H3, H4, H5.
Qed.

Lemma scan_body cps rest : Forall scalar_value cps ->
  exists l, scan_string (concat_str (map json_rune (map Some cps)) +:+ String quote rest) = Some (l, rest)
    /\ unquote l = concat_all (map utf8 cps).
Proof.
  induction 1 as [|n cps Hn Hc IH].
  - by exists [].
  - destruct IH as (l & Hl & Hu). exists (rune_chars n ++ l).
    cbn [map concat_str fold_right]. rewrite app_assoc_s, scan_rune by done.
    unfold concat_str in Hl. rewrite Hl. split; [done|].
    rewrite unquote_rune by done. cbn. unfold concat_all in Hu. by rewrite Hu.
Qed.

Lemma scan_json_body s rest : valid_utf8 s ->
  exists l, scan_string (json_body s +:+ String quote rest) = Some (l, rest) /\ unquote l = s.
Proof.
  intros (cps & Hc & ->). unfold json_body. rewrite runes_valid by done.
  by apply scan_body.
Qed.

(** ** Values *)

Section json_ind.
  Variable P : json -> Prop.
  Hypothesis Hnull : P JNull.
  Hypothesis Hbool : forall b, P (JBool b).
  Hypothesis Hnum : forall l, P (JNum l).
  Hypothesis Hstr : forall s, P (JStr s).
  Hypothesis Harr : forall l, Forall P l -> P (JArr l).
  Hypothesis Hobj : forall l, Forall (fun kv => P kv.2) l -> P (JObj l).
  Fixpoint json_ind2 (j : json) : P j :=
    match j return P j with
    | JNull => Hnull
    | JBool b => Hbool b
    | JNum l => Hnum l
    | JStr s => Hstr s
    | JArr l => Harr l ((fix go (l : list json) : Forall P l :=
                           match l with
                           | [] => List.Forall_nil P
                           | x :: r => List.Forall_cons P x r (json_ind2 x) (go r)
                           end) l)
    | JObj l => Hobj l ((fix go (l : list (string * json)) : Forall (fun kv => P kv.2) l :=
                           match l with
                           | [] => List.Forall_nil (fun kv => P kv.2)
                           | x :: r => List.Forall_cons (fun kv => P kv.2) x r (json_ind2 x.2) (go r)
                           end) l)
    end.
End json_ind.

(** A number literal that is scanned as such. *)
Definition num_ok (lit : string) : Prop :=
  (forall rest, num_end rest = true -> scan_number (lit +:+ rest) = Some (lit, rest)) /\
  exists a r, lit = String a r /\ (is_digit a = true \/ a = "-"%char).

Lemma num_ok_itoa z : num_ok (itoa z).
Proof. split; [intros; by apply scan_number_itoa|apply itoa_head]. Qed.

Fixpoint json_ok (j : json) : Prop :=
  match j with
  | JNull | JBool _ => True
  | JNum lit => num_ok lit
  | JStr s => valid_utf8 s
  | JArr l => (fix go (l : list json) : Prop :=
                 match l with [] => True | x :: r => json_ok x /\ go r end) l
  | JObj l => (fix go (l : list (string * json)) : Prop :=
                 match l with [] => True | x :: r => (valid_utf8 (fst x) /\ json_ok (snd x)) /\ go r end) l
  end.
Lemma json_ok_arr l : json_ok (JArr l) <-> Forall json_ok l.
Proof.
  cbn. induction l as [|x l IH]; [split; [constructor|done]|]. rewrite IH. split.
  - intros [? ?]. by constructor.
  - inversion 1; subst. done.
Qed.
Lemma json_ok_obj l : json_ok (JObj l) <-> Forall (fun kv => valid_utf8 (fst kv) /\ json_ok (snd kv)) l.
Proof.
  cbn. induction l as [|x l IH]; [split; [constructor|done]|]. rewrite IH. split.
  - intros [? ?]. by constructor.
  - inversion 1; subst. done.
Qed.

Fixpoint jdepth (j : json) : N :=
  match j with
  | JArr l => 1 + fold_right (fun x m => N.max (jdepth x) m) 0 l
  | JObj l => 1 + fold_right (fun kv m => N.max (jdepth (snd kv)) m) 0 l
  | _ => 0
  end%N.

Definition member_text (kv : string * json) : string :=
  json_string (fst kv) +:+ ":" +:+ json_render (snd kv).

(** The dispatch of [parse_value] on a first character. *)
Definition starts_value (s : string) : Prop :=
  exists a r, s = String a r /\ is_json_space a = false /\ a <> "}"%char /\ a <> "]"%char.

Lemma number_head a : is_digit a = true \/ a = "-"%char ->
  is_json_space a = false /\ a <> "}"%char /\ a <> "]"%char /\ Ascii.eqb a "{" = false /\
  Ascii.eqb a "[" = false /\ Ascii.eqb a quote = false /\ Ascii.eqb a "t" = false /\
  Ascii.eqb a "f" = false /\ Ascii.eqb a "n" = false.
Proof.
  assert (H : forallb (fun a => negb (is_digit a || Ascii.eqb a "-") || (
    negb (is_json_space a) && negb (Ascii.eqb a "}") && negb (Ascii.eqb a "]") &&
    negb (Ascii.eqb a "{") && negb (Ascii.eqb a "[") && negb (Ascii.eqb a quote) &&
    negb (Ascii.eqb a "t") && negb (Ascii.eqb a "f") && negb (Ascii.eqb a "n"))) all_ascii = true)
    by (vm_compute; reflexivity).
  intros Ha. pose proof (ascii_forall _ H a) as HH. cbv beta in HH.
  apply orb_true_iff in HH as [HH|HH].
  - apply negb_true_iff, orb_false_iff in HH as [H1 H2]. destruct Ha as [Ha| ->]; [congruence|discriminate].
  - rewrite !andb_true_iff, !negb_true_iff, !Ascii.eqb_neq in HH. rewrite !Ascii.eqb_neq. tauto.
Qed.

Lemma render_starts j : json_ok j -> starts_value (json_render j).
Proof.
  destruct j as [|[]|lit|s|l|l]; cbn [json_render]; intros Hok.
  1-3: eexists _, _; split; [reflexivity|done].
  - destruct Hok as [_ (a & r & -> & Ha)]. apply number_head in Ha. exists a, r. tauto.
  - eexists _, _. split; [reflexivity|done].
  - eexists _, _. split; [reflexivity|done].
  - eexists _, _. split; [reflexivity|done].
Qed.
Lemma starts_skip s r : starts_value s -> skip_ws (s +:+ r) = s +:+ r.
Proof. intros (a & t & -> & Ha & _). rewrite app_cons_s. cbn. by rewrite Ha. Qed.

Lemma render_nonempty j : json_ok j -> 1 <= slen (json_render j).
Proof. intros H. apply render_starts in H as (a & r & -> & _). cbn. lia. Qed.

Definition value_ok (j : json) : Prop := forall fuel depth rest,
  slen (json_render j) <= fuel -> (jdepth j <= depth)%N -> num_end rest = true ->
  parse_value fuel depth (json_render j +:+ rest) = Some (j, rest).

Lemma skip_ws_cons a r : is_json_space a = false -> skip_ws (String a r) = String a r.
Proof. intros H. cbn. by rewrite H. Qed.

Lemma parse_members_ok l : l <> [] ->
  Forall (fun kv => valid_utf8 (fst kv) /\ json_ok (snd kv) /\ value_ok (snd kv)) l ->
  forall fuel depth rest,
  slen (join "," (map member_text l)) <= fuel ->
  Forall (fun kv => jdepth (snd kv) <= depth)%N l ->
  parse_members fuel depth (join "," (map member_text l) +:+ String "}" rest) = Some (l, rest).
Proof.
  intros Hne HF. induction HF as [|[k v] l Hkv HF IH]; [done|]. intros fuel depth rest Hfuel Hd.
  cbn [fst snd] in Hkv. destruct Hkv as (Hk & Hokv & Hv).
  inversion Hd as [|? ? Hdv Hdl]; subst. cbn [fst snd] in Hdv.
  assert (Hstep : forall tail tl,
    (forall f, slen (json_render v) <= f ->
      parse_value f depth (json_render v +:+ String tail tl) = Some (v, String tail tl)) ->
    is_json_space tail = false ->
    forall f, slen (member_text (k, v)) <= f ->
    parse_members (S f) depth (member_text (k, v) +:+ String tail tl) =
    (if Ascii.eqb tail "}" then Some ([(k, v)], tl)
     else if Ascii.eqb tail "," then
       match parse_members f depth tl with
       | Some (l, rest) => Some ((k, v) :: l, rest)
       | None => None
       end
     else None)).
  { intros tail tl Hpv Hsp f Hf. unfold member_text, json_string, str1 in *. cbn [fst snd] in *.
    rewrite !slen_app in Hf. cbn [String.length] in Hf. rewrite slen_app in Hf. cbn in Hf.
    snorm.
    cbn [parse_members]. rewrite skip_ws_cons by done. rewrite Ascii.eqb_refl. cbn [negb].
    destruct (scan_json_body k (String ":" (json_render v +:+ String tail tl)) Hk) as (lk & Hs & Hu).
    rewrite Hs, skip_ws_cons by done. rewrite Ascii.eqb_refl. cbn [negb].
    rewrite Hpv by lia. rewrite skip_ws_cons by done. rewrite Hu. done. }
  assert (Hlen : 1 <= slen (member_text (k, v))).
  { unfold member_text, json_string. rewrite slen_app. cbn. lia. }
  destruct l as [|kv2 l].
  - cbn [map] in *. rewrite join_one in *.
    destruct fuel as [|f]; [lia|].
    assert (Hf : slen (member_text (k, v)) <= S f) by done.
    (* one unit of fuel is spent here, the closing brace pays for it *)
    unfold member_text, json_string, str1 in *. cbn [fst snd] in *.
    rewrite !slen_app in Hf. cbn [String.length] in Hf. rewrite slen_app in Hf. cbn in Hf.
    snorm.
    cbn [parse_members]. rewrite skip_ws_cons by done. rewrite Ascii.eqb_refl. cbn [negb].
    destruct (scan_json_body k (String ":" (json_render v +:+ String "}" rest)) Hk) as (lk & Hs & Hu).
    rewrite Hs, skip_ws_cons by done. rewrite Ascii.eqb_refl. cbn [negb].
    rewrite Hv by (lia || done). rewrite skip_ws_cons by done. rewrite Hu. done.
  - cbn [map] in *. rewrite join_cons in *. rewrite !slen_app in Hfuel. cbn [String.length] in Hfuel.
    snorm.
    destruct fuel as [|f]; [lia|]. rewrite Hstep.
    + change (Ascii.eqb "," "}") with false. change (Ascii.eqb "," ",") with true. cbv iota.
      rewrite IH; [done|done| |done]. lia.
    + intros f' Hf'. apply Hv; done.
    + done.
    + lia.
Qed.

Lemma parse_elements_ok l : l <> [] ->
  Forall (fun v => json_ok v /\ value_ok v) l ->
  forall fuel depth rest,
  slen (join "," (map json_render l)) < fuel ->
  Forall (fun v => jdepth v <= depth)%N l ->
  parse_elements fuel depth (join "," (map json_render l) +:+ String "]" rest) = Some (l, rest).
Proof.
  intros Hne HF. induction HF as [|v l [Hok Hv] HF IH]; [done|]. intros fuel depth rest Hfuel Hd.
  inversion Hd as [|? ? Hdv Hdl]; subst. pose proof (render_nonempty _ Hok).
  destruct l as [|v2 l].
  - cbn [map] in *. rewrite join_one in *. destruct fuel as [|f]; [lia|]. cbn [parse_elements].
    rewrite Hv by (lia || done). rewrite skip_ws_cons by done. done.
  - cbn [map] in *. rewrite join_cons in *. rewrite !slen_app in Hfuel. cbn [String.length] in Hfuel.
    snorm. destruct fuel as [|f]; [lia|]. cbn [parse_elements].
    rewrite Hv by (lia || done). rewrite skip_ws_cons by done.
    change (Ascii.eqb "," "]") with false. change (Ascii.eqb "," ",") with true. cbv iota.
    rewrite IH; [done|done| |done]. lia.
Qed.

Lemma join_head_starts l : l <> [] -> Forall starts_value l -> starts_value (join "," l).
Proof.
  destruct l as [|x l]; [done|]. intros _ HF. inversion HF as [|? ? (a & r & -> & H) ?]; subst.
  destruct l as [|y l]; [by exists a, r|]. rewrite join_cons, app_cons_s. by eexists _, _.
Qed.

Lemma render_value_ok j : json_ok j -> value_ok j.
Proof.
  induction j as [|b|lit|s|l IH|l IH] using json_ind2; intros Hok fuel depth rest Hfuel Hd Hrest;
    (destruct fuel as [|f]; [pose proof (render_nonempty _ Hok); lia|]).
  - reflexivity.
  - by destruct b.
  - destruct Hok as [Hs (a & r & Heq & Ha)]. apply number_head in Ha as (H1 & _ & _ & H2 & H3 & H4 & H5 & H6 & H7).
    cbn [parse_value json_render]. specialize (Hs rest Hrest). rewrite Heq in *. rewrite app_cons_s in *.
    rewrite skip_ws_cons by done. by rewrite H2, H3, H4, H5, H6, H7, Hs.
  - cbn [json_render]. unfold json_string, str1. snorm.
    cbn [parse_value]. rewrite skip_ws_cons by done.
    destruct (scan_json_body s rest Hok) as (lk & -> & ->). reflexivity.
  - apply json_ok_arr in Hok. cbn [json_render] in *. cbn [jdepth] in Hd.
    snorm. cbn [parse_value].
    rewrite skip_ws_cons by done. change (Ascii.eqb "[" "{") with false. change (Ascii.eqb "[" "[") with true.
    cbv iota. destruct (N.eqb_spec depth 0) as [->|Hd0]; [lia|].
    rewrite !slen_app in Hfuel. cbn [String.length] in Hfuel.
    destruct l as [|v l]; [done|].
    assert (Hst : starts_value (join "," (map json_render (v :: l)))).
    { apply join_head_starts; [done|]. apply Forall_map. eapply Forall_impl; [done|]. apply render_starts. }
    rewrite starts_skip by done.
    pose proof Hst as (a & r & Heq & Ha1 & Ha2 & Ha3). rewrite Heq at 1. rewrite app_cons_s.
    apply Ascii.eqb_neq in Ha3. rewrite Ha3. rewrite <- app_cons_s, <- Heq.
    rewrite parse_elements_ok; [done|done| | |].
    + clear -IH Hok. revert IH Hok. generalize (v :: l). intros k. induction k as [|x k IHk]; [constructor|].
      inversion 1; inversion 1; subst. constructor; [auto|auto].
    + lia.
    + clear -Hd. revert Hd. generalize (v :: l). intros k Hd. assert (Hd' : (fold_right (fun x m => N.max (jdepth x) m) 0 k <= depth - 1)%N) by lia.
      clear Hd. induction k as [|x k IHk]; [constructor|]. cbn in Hd'. constructor; [lia|]. apply IHk. lia.
  - apply json_ok_obj in Hok. cbn [json_render] in *. cbn [jdepth] in Hd.
    change (map (fun kv => json_string (fst kv) +:+ ":" +:+ json_render (snd kv)) l)
      with (map member_text l) in *.
    snorm. cbn [parse_value].
    rewrite skip_ws_cons by done. change (Ascii.eqb "{" "{") with true.
    cbv iota. destruct (N.eqb_spec depth 0) as [->|Hd0]; [lia|].
    rewrite !slen_app in Hfuel. cbn [String.length] in Hfuel.
    destruct l as [|kv l]; [done|].
    assert (Hst : starts_value (join "," (map member_text (kv :: l)))).
    { apply join_head_starts; [done|]. apply Forall_map. apply Forall_forall. intros x _.
      unfold member_text, json_string. rewrite app_cons_s. by eexists _, _. }
    rewrite starts_skip by done.
    pose proof Hst as (a & r & Heq & Ha1 & Ha2 & Ha3). rewrite Heq at 1. rewrite app_cons_s.
    apply Ascii.eqb_neq in Ha2. rewrite Ha2. rewrite <- app_cons_s, <- Heq.
    rewrite parse_members_ok; [done|done| | |].
    + clear -IH Hok. revert IH Hok. generalize (kv :: l). intros k. induction k as [|x k IHk]; [constructor|].
      inversion 1; inversion 1; subst. constructor; [|auto]. naive_solver.
    + lia.
    + clear -Hd. revert Hd. generalize (kv :: l). intros k Hd.
      assert (Hd' : (fold_right (fun kv m => N.max (jdepth (snd kv)) m) 0 k <= depth - 1)%N) by lia.
      clear Hd. induction k as [|x k IHk]; [constructor|]. cbn in Hd'. constructor; [lia|]. apply IHk. lia.
Qed.

(** Marshal then Unmarshal. *)
Theorem json_roundtrip j : json_ok j -> (jdepth j <= max_depth)%N -> json_parse (json_render j) = Some j.
Proof.
  intros Hok Hd. unfold json_parse.
  pose proof (render_value_ok j Hok (S (slen (json_render j))) max_depth "") as H.
  rewrite app_nil_r_s in H. rewrite H; [done|lia|done|done].
Qed.
Theorem json_roundtrip_nl j : json_ok j -> (jdepth j <= max_depth)%N -> json_parse (json_encode j) = Some j.
Proof.
  intros Hok Hd. unfold json_parse, json_encode.
  rewrite (render_value_ok j Hok); [done| |done|done]. rewrite slen_app. lia.
Qed.
