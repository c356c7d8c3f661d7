(** Printing a parsed URL and parsing it again. *)
From Verif.Model Require Import GoStr Url.
From Verif.Proof Require Import StrFacts UrlFacts.
From Coq Require Import ZifyBool ZifyNat ZifyN.
Ltac Zify.zify_post_hook ::= Z.div_mod_to_equations.

(** ** Steps of unescape *)

Definition pct (h1 h2 : ascii) : bool := Ascii.eqb h1 "2" && Ascii.eqb h2 "5".
Definition hexes (c : ascii) (h1 h2 : ascii) : Prop :=
  exists x y, unhex h1 = Some x /\ unhex h2 = Some y /\ c = chr (x * 16 + y).

(** The two ways to read the first character. *)
Inductive ustep (m : mode) : string -> ascii -> string -> Prop :=
| ustep_hex h1 h2 x y r :
    unhex h1 = Some x -> unhex h2 = Some y ->
    mode_eqb m EncHost && (x <? 8)%N && negb (pct h1 h2) = false ->
    mode_eqb m EncZone && negb (pct h1 h2) && negb (Ascii.eqb (chr (x * 16 + y)) " ")
      && should_escape EncHost (chr (x * 16 + y)) = false ->
    ustep m (String "%" (String h1 (String h2 r))) (chr (x * 16 + y)) r
| ustep_raw c r :
    c <> "%"%char ->
    (c <> "+"%char -> (mode_eqb m EncHost || mode_eqb m EncZone) && (ord c <? 128)%N && should_escape m c = false) ->
    ustep m (String c r) (if Ascii.eqb c "+" then (if mode_eqb m EncQuery then " "%char else "+"%char) else c) r.

Lemma unescape_step m s c r : ustep m s c r ->
  unescape m s = match unescape m r with Some t => Some (String c t) | None => None end.
Proof.
  intros [h1 h2 x y r' Hx Hy H1 H2|c' r' Hc Hr].
  - cbn [unescape]. change (Ascii.eqb "%" "%") with true. cbv iota. rewrite Hx, Hy. cbv zeta.
    fold (pct h1 h2). by rewrite H1, H2.
  - cbn [unescape]. apply Ascii.eqb_neq in Hc. rewrite Hc. destruct (Ascii.eqb_spec c' "+") as [->|Hp]; [done|].
    by rewrite Hr.
Qed.

Lemma unescape_inv m s t : unescape m s = Some t ->
  (s = "" /\ t = "") \/ exists c r t', ustep m s c r /\ unescape m r = Some t' /\ t = String c t'.
Proof.
  destruct s as [|a s]; [intros [= <-]; auto|]. intros H. right.
  cbn [unescape] in H. destruct (Ascii.eqb_spec a "%") as [->|Ha].
  - destruct s as [|h1 [|h2 r]]; [done..|].
    destruct (unhex h1) as [x|] eqn:E1; [|done]. destruct (unhex h2) as [y|] eqn:E2; [|done]. cbv zeta in H.
    fold (pct h1 h2) in H.
    destruct (mode_eqb m EncHost && (x <? 8)%N && negb (pct h1 h2)) eqn:C1; [done|].
    destruct (mode_eqb m EncZone && negb (pct h1 h2) && negb (Ascii.eqb (chr (x * 16 + y)) " ")
      && should_escape EncHost (chr (x * 16 + y))) eqn:C2; [done|].
    destruct (unescape m r) as [t'|] eqn:Er; [|done]. injection H as <-.
    exists (chr (x * 16 + y)), r, t'. split; [|done]. by constructor.
  - destruct (Ascii.eqb a "+") eqn:Ep.
    + destruct (unescape m s) as [t'|] eqn:Er; [|done]. injection H as <-.
      eexists _, s, t'. split; [|done].
      pose proof (ustep_raw m a s Ha) as HS. rewrite Ep in HS. apply HS.
      intros Hn. apply Ascii.eqb_eq in Ep. done.
    + destruct ((mode_eqb m EncHost || mode_eqb m EncZone) && (ord a <? 128)%N && should_escape m a) eqn:C; [done|].
      destruct (unescape m s) as [t'|] eqn:Er; [|done]. injection H as <-.
      exists a, s, t'. split; [|done].
      pose proof (ustep_raw m a s Ha) as HS. rewrite Ep in HS. by apply HS.
Qed.

Lemma ustep_len m s c r : ustep m s c r -> slen r < slen s.
Proof. intros [|]; cbn; lia. Qed.

(** Strong induction along a successful unescape. *)
Lemma unescape_ind m (P : string -> string -> Prop) :
  P "" "" ->
  (forall s c r t, ustep m s c r -> unescape m r = Some t -> P r t -> P s (String c t)) ->
  forall s t, unescape m s = Some t -> P s t.
Proof.
  intros H0 HS s. remember (slen s) as n eqn:Hn. revert s Hn.
  induction n as [n IH] using lt_wf_ind. intros s -> t H.
  destruct (unescape_inv m s t H) as [[-> ->]|(c & r & t' & Hs & Hr & ->)]; [done|].
  eapply HS; [done..|]. eapply IH; [|reflexivity|done]. by eapply ustep_len.
Qed.

Definition not_hex (c : ascii) : bool := match unhex c with None => true | Some _ => false end.

(** A byte that is no hexadecimal digit cannot be inside an escape. *)
Lemma unescape_split m a c b : not_hex c = true ->
  unescape m (a +:+ String c b) =
  match unescape m a, unescape m (String c b) with Some x, Some y => Some (x +:+ y) | _, _ => None end.
Proof.
  intros Hc. unfold not_hex in Hc. remember (slen a) as n eqn:Hn. revert a Hn.
  induction n as [n IH] using lt_wf_ind. intros a ->.
  destruct a as [|a0 a].
  { rewrite app_nil_s. change (unescape m "") with (Some ""). destruct (unescape m (String c b)); done. }
  rewrite app_cons_s.
  remember (String c b) as cb eqn:Ecb. cbn [unescape].
  destruct (Ascii.eqb a0 "%") eqn:E0.
  - destruct a as [|h1 [|h2 r]].
    + rewrite app_nil_s, Ecb. destruct b as [|b0 b]; [done|]. destruct (unhex c); done.
    + rewrite app_cons_s, app_nil_s, Ecb. destruct (unhex h1), (unhex c); done.
    + rewrite !app_cons_s. destruct (unhex h1) as [x|]; [|done]. destruct (unhex h2) as [y|]; [|done]. cbv zeta.
      destruct (_ && _ && _); [done|]. destruct (_ && _ && _ && _); [done|].
      rewrite (IH (slen r)) by (done || (cbn; lia)). destruct (unescape m r), (unescape m cb); done.
  - rewrite (IH (slen a)) by (done || (cbn; lia)).
    destruct (Ascii.eqb a0 "+"); [destruct (unescape m a), (unescape m cb); done|].
    destruct (_ && _ && _); [done|]. destruct (unescape m a), (unescape m cb); done.
Qed.

(** ** Hosts *)

Definition hgood (c : ascii) : bool := (128 <=? ord c)%N || negb (should_escape EncHost c) || Ascii.eqb c "%".
Definition zgood (c : ascii) : bool := negb (should_escape EncHost c) || Ascii.eqb c "%" || Ascii.eqb c " ".
Definition ascii_only (s : string) : bool := all_bytes (fun c => (ord c <? 128)%N) s.

Lemma hex_char_no m c : should_escape m c = false -> True. Proof. done. Qed.

Lemma esc_pct c : escape_byte EncHost c = String "%" (String (hex_char (ord c / 16)) (str1 (hex_char (ord c mod 16)))) ->
  pct (hex_char (ord c / 16)) (hex_char (ord c mod 16)) = Ascii.eqb c "%".
Proof.
  intros _. assert (H : Bool.eqb (pct (hex_char (ord c / 16)) (hex_char (ord c mod 16))) (Ascii.eqb c "%") = true).
  { revert c. apply ascii_forall. vm_compute. reflexivity. }
  by apply Bool.eqb_prop.
Qed.

Lemma host_byte c r : hgood c = true -> exists s,
  escape_byte EncHost c = s /\ ustep EncHost (s +:+ r) c r.
Proof.
  intros Hg. eexists. split; [reflexivity|].
  destruct (escape_byte_cases EncHost c) as [(Hq & _)|[(Hs & E)|(Hs & E & Hp & _)]]; [done|..].
  - pose proof (esc_pct c E) as Hpct. rewrite E. unfold str1. snorm. pose proof (ord_lt c).
    replace c with (chr (ord c / 16 * 16 + ord c mod 16)) at 3.
    2:{ replace (ord c / 16 * 16 + ord c mod 16)%N with (ord c) by lia. apply chr_ord. }
    constructor; [apply unhex_hex; lia|apply unhex_hex; lia|..]; [|done].
    rewrite Hpct. unfold hgood in Hg. rewrite Hs in Hg. cbn [mode_eqb andb].
    destruct (Ascii.eqb c "%"); [by rewrite andb_false_r|]. cbn in Hg. rewrite !orb_false_r in Hg. lia.
  - rewrite E. unfold str1. snorm. pose proof (ustep_raw EncHost c r Hp) as HS.
    assert (Hc : (if Ascii.eqb c "+" then (if mode_eqb EncHost EncQuery then " "%char else "+"%char) else c) = c).
    { destruct (Ascii.eqb_spec c "+") as [->|]; done. }
    rewrite Hc in HS. apply HS. intros _. rewrite Hs. by rewrite andb_false_r.
Qed.

Lemma zone_byte c r : zgood c = true -> ustep EncZone (escape_byte EncHost c +:+ r) c r.
Proof.
  intros Hg.
  destruct (escape_byte_cases EncHost c) as [(Hq & _)|[(Hs & E)|(Hs & E & Hp & _)]]; [done|..].
  - pose proof (esc_pct c E) as Hpct. rewrite E. unfold str1. snorm. pose proof (ord_lt c).
    assert (Hv : chr (ord c / 16 * 16 + ord c mod 16) = c).
    { replace (ord c / 16 * 16 + ord c mod 16)%N with (ord c) by lia. apply chr_ord. }
    rewrite <- Hv at 3.
    constructor; [apply unhex_hex; lia|apply unhex_hex; lia|done|].
    rewrite Hpct, Hv. unfold zgood in Hg. rewrite Hs in *. cbn [mode_eqb andb].
    destruct (Ascii.eqb c "%"); [done|]. cbn in Hg. rewrite Hg. done.
  - rewrite E. unfold str1. snorm. pose proof (ustep_raw EncZone c r Hp) as HS.
    assert (Hc : (if Ascii.eqb c "+" then (if mode_eqb EncZone EncQuery then " "%char else "+"%char) else c) = c).
    { destruct (Ascii.eqb_spec c "+") as [->|]; done. }
    rewrite Hc in HS. apply HS. intros _.
    assert (HH : Bool.eqb (should_escape EncZone c) (should_escape EncHost c) = true)
      by (clear; revert c; apply ascii_forall; vm_compute; reflexivity).
    apply Bool.eqb_prop in HH. rewrite HH, Hs. by rewrite andb_false_r.
Qed.

Lemma host_roundtrip h : all_bytes hgood h = true -> unescape EncHost (escape EncHost h) = Some h.
Proof.
  unfold escape. induction h as [|c h IH]; [done|]. cbn [all_bytes flat_map_bytes]. rewrite andb_true_iff. intros [H1 H2].
  destruct (host_byte c (flat_map_bytes (escape_byte EncHost) h) H1) as (s & -> & Hs).
  by rewrite (unescape_step _ _ _ _ Hs), IH.
Qed.
Lemma zone_roundtrip h : all_bytes zgood h = true -> unescape EncZone (escape EncHost h) = Some h.
Proof.
  unfold escape. induction h as [|c h IH]; [done|]. cbn [all_bytes flat_map_bytes]. rewrite andb_true_iff. intros [H1 H2].
  by rewrite (unescape_step _ _ _ _ (zone_byte c _ H1)), IH.
Qed.

Lemma unhex_lt h x : unhex h = Some x -> (x < 16)%N.
Proof.
  intros H. assert (HH : match unhex h with Some x => (x <? 16)%N | None => true end = true)
    by (clear; revert h; apply ascii_forall; vm_compute; reflexivity).
  rewrite H in HH. lia.
Qed.
Lemma pct_val h1 h2 x y : pct h1 h2 = true -> unhex h1 = Some x -> unhex h2 = Some y -> chr (x * 16 + y) = "%"%char.
Proof.
  unfold pct. rewrite andb_true_iff, !Ascii.eqb_eq. intros [-> ->] H1 H2. vm_compute in H1, H2.
  injection H1 as <-. injection H2 as <-. reflexivity.
Qed.

(** A character read in host mode is the raw one, '%' or beyond ASCII. *)
Lemma host_step_char s c r : ustep EncHost s c r ->
  hgood c = true /\ (c = "%"%char \/ (128 <= ord c)%N \/ s = String c r).
Proof.
  intros [h1 h2 x y r' Hx Hy H1 H2|c' r' Hc Hr].
  - pose proof (unhex_lt _ _ Hx). pose proof (unhex_lt _ _ Hy). destruct (pct h1 h2) eqn:Ep.
    + rewrite (pct_val _ _ _ _ Ep Hx Hy). auto.
    + cbn in H1. rewrite andb_true_r in H1.
      assert (Hc : (128 <= ord (chr (x * 16 + y)))%N) by (rewrite ord_chr by lia; lia).
      split; [|auto]. unfold hgood. apply orb_true_iff. left. apply orb_true_iff. left. lia.
  - destruct (Ascii.eqb_spec c' "+") as [->|Hp].
    + split; [reflexivity|]. right; right. reflexivity.
    + specialize (Hr Hp). cbn in Hr. split; [|auto].
      unfold hgood. destruct (128 <=? ord c')%N eqn:E; [done|]. cbn [orb].
      apply orb_true_iff. left. apply negb_true_iff. replace (ord c' <? 128)%N with true in Hr by lia. done.
Qed.

Lemma host_good s h : unescape EncHost s = Some h -> all_bytes hgood h = true.
Proof.
  revert s h. apply (unescape_ind EncHost (fun s h => all_bytes hgood h = true)); [done|]. intros s c r t Hs _ IH. cbn [all_bytes]. apply host_step_char in Hs as [-> _]. done.
Qed.

Lemma zone_good s h : unescape EncZone s = Some h -> ascii_only s = true -> all_bytes zgood h = true.
Proof.
  revert s h. apply (unescape_ind EncZone (fun s h => ascii_only s = true -> all_bytes zgood h = true)); [done|].
  intros s c r t Hs _ IH Ha. cbn [all_bytes].
  destruct Hs as [h1 h2 x y r' Hx Hy H1 H2|c' r' Hc Hr].
  - unfold ascii_only in Ha. cbn in Ha. rewrite !andb_true_iff in Ha. destruct Ha as (_ & _ & _ & Ha).
    rewrite IH, andb_true_r by done.
    unfold zgood. destruct (pct h1 h2) eqn:Ep.
    + rewrite (pct_val _ _ _ _ Ep Hx Hy). done.
    + cbn in H2. destruct (Ascii.eqb (chr (x * 16 + y)) " "); [by rewrite orb_true_r|]. cbn in H2. by rewrite H2.
  - unfold ascii_only in Ha. cbn in Ha. rewrite andb_true_iff in Ha. destruct Ha as [Ha0 Ha].
    rewrite IH, andb_true_r by done.
    destruct (Ascii.eqb_spec c' "+") as [->|Hp]; [reflexivity|].
    specialize (Hr Hp). cbn [mode_eqb orb andb] in Hr. rewrite Ha0 in Hr. cbn in Hr.
    assert (HH : Bool.eqb (should_escape EncZone c') (should_escape EncHost c') = true)
      by (clear; revert c'; apply ascii_forall; vm_compute; reflexivity).
    apply Bool.eqb_prop in HH. unfold zgood. by rewrite <- HH, Hr.
Qed.

Lemma host_not_contains a s h : (ord a < 128)%N -> a <> "%"%char -> contains a s = false ->
  unescape EncHost s = Some h -> contains a h = false.
Proof.
  intros Ha Hp Hc H. revert s h H Hc. apply (unescape_ind EncHost (fun s h => contains a s = false -> contains a h = false)); [done|].
  intros s c r t Hs _ IH Hc. cbn.
  assert (Hr : contains a r = false).
  { destruct Hs; cbn in Hc; rewrite ?orb_false_iff in Hc; tauto. }
  rewrite IH, orb_false_r by done. apply Ascii.eqb_neq. intros ->.
  apply host_step_char in Hs as [_ [E|[E|E]]]; [done|lia|]. subst s.
  cbn in Hc. rewrite (proj2 (Ascii.eqb_eq a a) eq_refl) in Hc. done.
Qed.

Definition hexpct (c : ascii) : bool := negb (not_hex c) || Ascii.eqb c "%".
Lemma hex_char_hexpct n : (n < 16)%N -> hexpct (hex_char n) = true.
Proof.
  revert n. apply (N_forall (fun n => hexpct (hex_char n)) 16). vm_compute. reflexivity.
Qed.
Lemma escape_not_contains m a s : hexpct a = false -> (mode_eqb m EncQuery = true -> a <> "+"%char) ->
  contains a s = false -> contains a (escape m s) = false.
Proof.
  intros Ha Hplus. unfold escape. induction s as [|c s IH]; [done|]. cbn [contains flat_map_bytes]. rewrite orb_false_iff. intros [Hc Hs].
  rewrite contains_app, IH, orb_false_r by done. pose proof (ord_lt c).
  destruct (escape_byte_cases m c) as [(Hq & _ & ->)|[(_ & ->)|(_ & -> & _)]].
  - cbn [contains]. rewrite orb_false_r. apply Ascii.eqb_neq. intros <-. by apply Hplus.
  - unfold str1. cbn [contains]. rewrite !orb_false_iff. repeat split; try done; apply Ascii.eqb_neq; intros <-.
    + done.
    + by rewrite hex_char_hexpct in Ha by lia.
    + by rewrite hex_char_hexpct in Ha by lia.
  - cbn [contains str1]. unfold str1. cbn [contains]. by rewrite Hc.
Qed.

(** Escaping never produces some characters. *)
Lemma escape_never m a s : (forall c, contains a (escape_byte m c) = false) -> contains a (escape m s) = false.
Proof.
  intros H. unfold escape. induction s as [|c s IH]; [done|]. cbn [flat_map_bytes]. by rewrite contains_app, H, IH.
Qed.

Lemma escape_app m s t : escape m (s +:+ t) = escape m s +:+ escape m t.
Proof. apply flat_map_bytes_app. Qed.

(** Ports. *)
Definition port_ok (p : string) : bool := all_bytes is_digit p.
Lemma port_unescape p : port_ok p = true -> unescape EncHost p = Some p.
Proof.
  unfold port_ok. induction p as [|c p IH]; [done|]. cbn [all_bytes]. rewrite andb_true_iff. intros [Hc Hp].
  assert (HH : (negb (is_digit c) || (negb (Ascii.eqb c "%") && negb (Ascii.eqb c "+") && negb (should_escape EncHost c))) = true)
    by (clear; revert c; apply ascii_forall; vm_compute; reflexivity).
  rewrite Hc in HH. cbn [negb orb] in HH. rewrite !andb_true_iff, !negb_true_iff in HH. destruct HH as [[H1 H2] H3].
  cbn [unescape]. rewrite H1, H2, H3, andb_false_r, IH by done. done.
Qed.
Lemma port_escape p : port_ok p = true -> escape EncHost p = p.
Proof.
  unfold port_ok, escape. induction p as [|c p IH]; [done|]. cbn [all_bytes flat_map_bytes]. rewrite andb_true_iff. intros [Hc Hp].
  rewrite IH by done.
  assert (HH : (negb (is_digit c) || negb (should_escape EncHost c)) = true)
    by (clear; revert c; apply ascii_forall; vm_compute; reflexivity).
  rewrite Hc in HH. cbn [negb orb] in HH. rewrite negb_true_iff in HH.
  unfold escape_byte. cbn [mode_eqb andb]. rewrite HH. unfold str1. by snorm.
Qed.
Lemma port_not_contains a p : is_digit a = false -> port_ok p = true -> contains a p = false.
Proof. intros Ha Hp. by eapply all_bytes_not_contains. Qed.

Lemma last_cut_app c s t : contains c t = false -> last_cut c (s +:+ String c t) = Some (s, t).
Proof. intros H. apply last_cut_some. done. Qed.

(** cut_pct25 *)
Lemma cut_pct25_spec s a b : cut_pct25 s = Some (a, b) ->
  s = a +:+ b /\ (exists r, b = "%25" +:+ r) /\ cut_pct25 a = None.
Proof.
  revert a b. induction s as [|c s IH]; intros a b; cbn [cut_pct25].
  - done.
  - destruct (strip_prefix "%25" (String c s)) as [r|] eqn:E.
    + intros [= <- <-]. apply strip_prefix_some in E. split; [done|]. split; [by exists r|done].
    + destruct (cut_pct25 s) as [[x y]|]; [|done]. intros [= <- <-].
      destruct (IH x y eq_refl) as (-> & (r & ->) & Hx). split; [by snorm|]. split; [by exists r|].
      cbn [cut_pct25]. rewrite Hx. destruct (strip_prefix "%25" (String c x)) as [r'|] eqn:E2; [|done].
      apply strip_prefix_some in E2. exfalso.
      assert (HH : strip_prefix "%25" (String c (x +:+ "%25" +:+ r)) = Some (r' +:+ "%25" +:+ r)).
      { apply strip_prefix_some. rewrite <- app_cons_s, E2. by snorm. }
      congruence.
Qed.

Lemma cut_pct25_step c s : strip_prefix "%25" (String c s) = None -> cut_pct25 (String c s) =
  match cut_pct25 s with Some (x, y) => Some (String c x, y) | None => None end.
Proof. intros H. cbn [cut_pct25]. by rewrite H. Qed.
Lemma cut_pct25_cons c s : c <> "%"%char -> cut_pct25 (String c s) =
  match cut_pct25 s with Some (x, y) => Some (String c x, y) | None => None end.
Proof.
  intros H. cbn [cut_pct25 strip_prefix]. assert (Ascii.eqb "%" c = false) as -> by (apply Ascii.eqb_neq; congruence).
  done.
Qed.

Lemma cut_pct25_escape a x : all_bytes hgood a = true -> contains "%" a = false ->
  cut_pct25 (escape EncHost a +:+ x) =
  match cut_pct25 x with Some (p, q) => Some (escape EncHost a +:+ p, q) | None => None end.
Proof.
  unfold escape. induction a as [|c a IH].
  { intros _ _. cbn [flat_map_bytes]. rewrite app_nil_s. destruct (cut_pct25 x) as [[p q]|]; [by rewrite app_nil_s|done]. }
  cbn [all_bytes contains flat_map_bytes]. rewrite andb_true_iff, orb_false_iff. intros [Hg Hga] [Hc Ha].
  specialize (IH Hga Ha). rewrite app_assoc_s. pose proof (ord_lt c).
  destruct (escape_byte_cases EncHost c) as [(Hq & _)|[(Hs & ->)|(Hs & -> & Hp & _)]]; [done|..].
  - unfold hgood in Hg. rewrite Hs, Hc in Hg. cbn [negb orb] in Hg. rewrite !orb_false_r in Hg.
    assert (Hx : (8 <= ord c / 16 < 16)%N) by lia.
    assert (H1 : forall n, (n < N.of_nat 16)%N -> ((n <? 8)%N || negb (Ascii.eqb "2" (hex_char n))) && negb (Ascii.eqb (hex_char n) "%") = true)
      by (apply N_forall; vm_compute; reflexivity).
    pose proof (H1 (ord c / 16)%N ltac:(lia)) as H2. pose proof (H1 (ord c mod 16)%N ltac:(lia)) as H3.
    rewrite andb_true_iff, orb_true_iff in H2, H3. destruct H2 as [[H2|H2] H4]; [lia|]. destruct H3 as [_ H3].
    apply negb_true_iff in H2, H3, H4. apply Ascii.eqb_neq in H3, H4.
    unfold str1. snorm. rewrite cut_pct25_step.
    2:{ cbn [strip_prefix]. change (Ascii.eqb "%" "%") with true. cbv iota. by rewrite H2. }
    rewrite !cut_pct25_cons by done. rewrite IH. by destruct (cut_pct25 x) as [[p q]|].
  - unfold str1. snorm. rewrite cut_pct25_cons by done. rewrite IH. by destruct (cut_pct25 x) as [[p q]|].
Qed.

Lemma pct25_none_host s h : cut_pct25 s = None -> unescape EncHost s = Some h -> contains "%" h = false.
Proof.
  intros Hc H. revert s h H Hc.
  apply (unescape_ind EncHost (fun s h => cut_pct25 s = None -> contains "%" h = false)); [done|].
  intros s c r t Hs _ IH Hc. cbn [contains].
  destruct Hs as [h1 h2 x y r' Hx Hy H1 H2|c' r' Hc' Hr].
  - cbn [cut_pct25] in Hc. destruct (strip_prefix "%25" (String "%" (String h1 (String h2 r')))) eqn:Ep; [done|].
    assert (Hr' : cut_pct25 r' = None).
    { destruct (cut_pct25 r') as [[p q]|] eqn:Er; [|done]. exfalso. revert Hc.
      destruct (strip_prefix "%25" (String h1 _)); [done|]. destruct (strip_prefix "%25" (String h2 _)); [done|]. done. }
    rewrite IH, orb_false_r by done.
    destruct (pct h1 h2) eqn:Epc.
    + exfalso. unfold pct in Epc. rewrite andb_true_iff, !Ascii.eqb_eq in Epc. destruct Epc as [-> ->].
      cbn in Ep. done.
    + cbn in H1. rewrite andb_true_r in H1. pose proof (unhex_lt _ _ Hx). pose proof (unhex_lt _ _ Hy).
      apply Ascii.eqb_neq. intros E. apply (f_equal ord) in E. rewrite ord_chr in E by lia.
      change (ord "%") with 37%N in E. lia.
  - rewrite cut_pct25_cons in Hc by done.
    assert (Hr' : cut_pct25 r' = None) by (destruct (cut_pct25 r') as [[]|]; done).
    rewrite IH, orb_false_r by done.
    destruct (Ascii.eqb_spec c' "+") as [->|_]; [done|]. by apply Ascii.eqb_neq.
Qed.

Lemma valid_port_cases cp : valid_optional_port cp = true <-> cp = "" \/ exists p, cp = String ":" p /\ port_ok p = true.
Proof.
  unfold valid_optional_port, port_ok. destruct cp as [|c r].
  - split; [by left|done].
  - rewrite andb_true_iff, Ascii.eqb_eq. split.
    + intros [-> H]. right. by exists r.
    + intros [|(p & [= -> ->] & H)]; done.
Qed.

Lemma colon_port_host cp : valid_optional_port cp = true ->
  unescape EncHost (String "]" cp) = Some (String "]" cp) /\ escape EncHost (String "]" cp) = String "]" cp /\
  contains "]" cp = false.
Proof.
  intros [->|(p & -> & Hp)]%valid_port_cases; [done|].
  assert (Hu : unescape EncHost (String ":" p) = Some (String ":" p)).
  { pose proof (ustep_raw EncHost ":" p) as HS. erewrite unescape_step by (apply HS; done). by rewrite port_unescape. }
  split; [|split].
  - pose proof (ustep_raw EncHost "]" (String ":" p)) as HS. erewrite unescape_step by (apply HS; done). by rewrite Hu.
  - unfold escape. cbn [flat_map_bytes]. change (escape_byte EncHost "]") with "]".
    change (escape_byte EncHost ":") with ":". fold (escape EncHost p). by rewrite port_escape.
  - cbn. by apply port_not_contains.
Qed.

Lemma escape_cons m c s : escape m (String c s) = escape_byte m c +:+ escape m s.
Proof. done. Qed.

Lemma host_head_bracket s h c : (ord c < 128)%N -> c <> "%"%char -> unescape EncHost s = Some h ->
  (exists r, h = String c r) <-> (exists r, s = String c r).
Proof.
  intros Hc Hp H. destruct (unescape_inv _ _ _ H) as [[-> ->]|(c' & r & t & Hs & Hr & ->)]; [split; intros [? ?]; done|].
  apply host_step_char in Hs as HS. destruct HS as [_ [E|[E|E]]].
  - split; [intros [r' [= -> _]]; done|]. intros [r' ->]. inversion Hs; subst; [done|].
    destruct (Ascii.eqb_spec c "+") as [->|]; [discriminate|by exfalso].
  - split; [intros [r' [= -> _]]; lia|]. intros [r' ->]. inversion Hs; subst; [done|].
    destruct (Ascii.eqb_spec c "+") as [->|]; [vm_compute in E; congruence|lia].
  - subst s. split; intros [r' [= -> _]]; by eexists.
Qed.

Lemma escape_head_bracket m s c : should_escape m c = false -> (mode_eqb m EncQuery = true -> c <> " "%char /\ c <> "+"%char) ->
  c <> "%"%char -> (exists r, escape m s = String c r) <-> (exists r, s = String c r).
Proof.
  intros Hc Hq Hp. destruct s as [|a s]; [split; intros [? ?]; done|]. rewrite escape_cons.
  destruct (escape_byte_cases m a) as [(Hq' & -> & ->)|[(Hs & ->)|(Hs & -> & _)]].
  - split; [intros [r H]|intros [r [= <- _]]]; exfalso; destruct (Hq Hq'); [|done]. injection H as <- _. done.
  - split; [intros [r H]|intros [r [= <- _]]]; exfalso; [|congruence]. injection H as <- _. done.
  - unfold str1. snorm. split; intros [r [= -> _]]; by eexists.
Qed.

Lemma strip_bracket s : (exists r, strip_prefix "[" s = Some r) <-> (exists r, s = String "[" r).
Proof. split; intros [r H]; exists r; [by apply (strip_prefix_some "[")|by apply (strip_prefix_some "[")]. Qed.

Lemma ascii_only_app s t : ascii_only (s +:+ t) = ascii_only s && ascii_only t.
Proof. apply all_bytes_app. Qed.

Lemma parse_host_roundtrip raw h : parse_host raw = Some h -> ascii_only raw = true ->
  parse_host (escape EncHost h) = Some h.
Proof.
  intros H Hascii. unfold parse_host in H.
  destruct (strip_prefix "[" raw) as [raw'|] eqn:Ebr.
  - apply strip_prefix_some in Ebr. change ("[" +:+ raw') with (String "[" raw') in Ebr.
    destruct (last_cut "]" raw) as [[before cp]|] eqn:Elc; [|done].
    apply last_cut_some in Elc as [Eraw Hcp].
    destruct (valid_optional_port cp) eqn:Evp; [|done]. cbn [negb] in H.
    destruct (colon_port_host cp Evp) as (Hu & He & Hnc).
    assert (exists b', before = String "[" b') as [b' Eb'].
    { rewrite Ebr in Eraw. destruct before as [|b0 b']; [discriminate|].
      rewrite app_cons_s in Eraw. injection Eraw as <- _. by exists b'. }
    destruct (cut_pct25 before) as [[z1 z2]|] eqn:Ecut.
    + destruct (unescape EncHost z1) as [a|] eqn:Ea; [|done].
      destruct (unescape EncZone z2) as [b|] eqn:Eb; [|done].
      rewrite Hu in H. injection H as <-.
      destruct (cut_pct25_spec _ _ _ Ecut) as (Ebz & (r2 & Ez2) & Hz1).
      assert (Hpa : contains "%" a = false) by (by eapply pct25_none_host).
      assert (Hga : all_bytes hgood a = true) by (by eapply host_good).
      assert (Hgb : all_bytes zgood b = true).
      { eapply zone_good; [done|]. rewrite Eraw, Ebz, !ascii_only_app, !andb_true_iff in Hascii. tauto. }
      rewrite !escape_app, He.
      assert (Hha : exists r, a = String "[" r).
      { apply (host_head_bracket z1 a "["); [done|done|done|].
        rewrite Eb' in Ebz. destruct z1 as [|c1 z1].
        - rewrite app_nil_s, Ez2 in Ebz. discriminate.
        - rewrite app_cons_s in Ebz. injection Ebz as <- _. by eexists. }
      assert (Hhe : exists r, escape EncHost a = String "[" r) by (by apply escape_head_bracket).
      unfold parse_host. destruct Hhe as [r Hr]. rewrite Hr at 1. rewrite app_cons_s.
      change (strip_prefix "[" (String "[" (r +:+ escape EncHost b +:+ String "]" cp)))
        with (Some (r +:+ escape EncHost b +:+ String "]" cp)). cbv iota.
      rewrite <- app_assoc_s, last_cut_app by done. rewrite Evp. cbn [negb].
      assert (Hb2 : exists t, b = String "%" t).
      { subst z2. change ("%25" +:+ r2) with (String "%" (String "2" (String "5" r2))) in Eb.
        apply unescape_inv in Eb as [[? _]|(c & r' & t & Hs & _ & ->)]; [done|].
        exists t. f_equal. inversion Hs as [h1 h2 x y rr Hx Hy _ _ Heq|]; subst; [|done].
        vm_compute in Hx, Hy. injection Hx as <-. injection Hy as <-. reflexivity. }
      destruct Hb2 as [tb Hb2].
      rewrite cut_pct25_escape by done.
      assert (Hcb : cut_pct25 (escape EncHost b) = Some ("", escape EncHost b)).
      { rewrite Hb2, escape_cons. change (escape_byte EncHost "%") with "%25".
        change ("%25" +:+ escape EncHost tb) with (String "%" (String "2" (String "5" (escape EncHost tb)))). done. }
      rewrite Hcb, app_nil_r_s, host_roundtrip, zone_roundtrip, Hu by done. done.
    + rewrite Eraw, unescape_split in H by done.
      destruct (unescape EncHost before) as [h1|] eqn:Eh1; [|done]. rewrite Hu in H. injection H as <-.
      assert (Hp1 : contains "%" h1 = false) by (by eapply pct25_none_host).
      assert (Hg1 : all_bytes hgood h1 = true) by (by eapply host_good).
      rewrite escape_app, He.
      assert (Hhe : exists r, escape EncHost h1 = String "[" r).
      { apply escape_head_bracket; [done..|]. apply (host_head_bracket before h1 "["); [done|done|done|]. by eexists. }
      unfold parse_host. destruct Hhe as [r Hr]. rewrite Hr at 1. rewrite app_cons_s.
      change (strip_prefix "[" (String "[" (r +:+ String "]" cp))) with (Some (r +:+ String "]" cp)). cbv iota.
      rewrite last_cut_app by done. rewrite Evp. cbn [negb].
      rewrite <- (app_nil_r_s (escape EncHost h1)) at 1. rewrite cut_pct25_escape by done. cbn [cut_pct25 strip_prefix].
      rewrite unescape_split, host_roundtrip, Hu by done. done.
  - assert (Hnb : strip_prefix "[" (escape EncHost h) = None).
    { destruct (strip_prefix "[" (escape EncHost h)) as [r|] eqn:E; [|done]. exfalso.
      assert (Hh : exists r, h = String "[" r).
      { apply (escape_head_bracket EncHost h "["); [done..|]. apply strip_bracket. by eexists. }
      assert (Hun : unescape EncHost raw = Some h).
      { destruct (last_cut ":" raw) as [[? port]|]; [|done]. by destruct (valid_optional_port _). }
      apply (host_head_bracket raw h "[") in Hh; [|done..]. apply strip_bracket in Hh as [? Hh]. congruence. }
    unfold parse_host. rewrite Hnb. destruct (last_cut ":" raw) as [[a port]|] eqn:Elc.
    + destruct (valid_optional_port (String ":" port)) eqn:Evp; [|done]. cbn [negb] in H.
      apply last_cut_some in Elc as [Eraw Hnc]. apply valid_port_cases in Evp as [|(p & [= <-] & Hp)]; [done|].
      rewrite Eraw, unescape_split in H by done.
      destruct (unescape EncHost a) as [h1|] eqn:Eh1; [|done].
      assert (Hu : unescape EncHost (String ":" port) = Some (String ":" port)).
      { pose proof (ustep_raw EncHost ":" port) as HS. erewrite unescape_step by (apply HS; done). by rewrite port_unescape. }
      rewrite Hu in H. injection H as <-.
      rewrite escape_app, escape_cons, (port_escape port) by done. change (escape_byte EncHost ":") with ":".
      change (":" +:+ port) with (String ":" port). rewrite last_cut_app by done.
      replace (valid_optional_port (String ":" port)) with true.
      cbn [negb]. rewrite unescape_split, host_roundtrip, Hu by (done || by eapply host_good). done.
    + apply last_cut_none in Elc.
      assert (Hnc : contains ":" (escape EncHost h) = false).
      { apply escape_not_contains; [done..|]. by eapply host_not_contains. }
      apply last_cut_none in Hnc. rewrite Hnc. apply host_roundtrip. by eapply host_good.
Qed.

(** ** Whole URLs *)

Definition no_ctl (s : string) : bool := all_bytes (fun c => negb (is_ctl c)) s.
Lemma no_ctl_app s t : no_ctl (s +:+ t) = no_ctl s && no_ctl t.
Proof. apply all_bytes_app. Qed.
Lemma escape_no_ctl m s : no_ctl (escape m s) = true.
Proof.
  apply all_bytes_flat_map. intros c. change (no_ctl (escape_byte m c) = true).
  destruct m; revert c; apply ascii_forall; vm_compute; reflexivity.
Qed.

(** Schemes. *)
Definition scheme_char (c : ascii) : bool := is_alpha c || is_digit c || is_one_of "+-." c.
Definition scheme_ok (s : string) : Prop :=
  exists a r, s = String a r /\ is_alpha a = true /\ all_bytes scheme_char r = true.

Lemma getscheme_go_false s p q : getscheme_go false s = Some (Some (p, q)) ->
  s = p +:+ ":" +:+ q /\ all_bytes scheme_char p = true.
Proof.
  revert p q. induction s as [|c s IH]; intros p q; [done|]. cbn [getscheme_go].
  destruct (is_alpha c) eqn:E1; [|destruct (is_digit c || is_one_of "+-." c) eqn:E2;
    [|destruct (Ascii.eqb_spec c ":") as [->|]]].
  - destruct (getscheme_go false s) as [[[p' q']|]|]; [|done..]. intros [= <- <-].
    destruct (IH p' q' eq_refl) as [-> H]. split; [by snorm|]. cbn [all_bytes]. unfold scheme_char at 1. by rewrite E1.
  - destruct (getscheme_go false s) as [[[p' q']|]|]; [|done..]. intros [= <- <-].
    destruct (IH p' q' eq_refl) as [-> H]. split; [by snorm|]. cbn [all_bytes]. unfold scheme_char at 1.
    by rewrite <- orb_assoc, E2, orb_true_r.
  - intros [= <- <-]. done.
  - done.
Qed.
Lemma getscheme_go_app p q : all_bytes scheme_char p = true -> getscheme_go false (p +:+ ":" +:+ q) = Some (Some (p, q)).
Proof.
  induction p as [|c p IH].
  - intros _. rewrite app_nil_s. change (":" +:+ q) with (String ":" q). done.
  - cbn [all_bytes]. rewrite andb_true_iff. intros [Hc Hp]. rewrite app_cons_s. cbn [getscheme_go]. rewrite IH by done.
    unfold scheme_char in Hc. rewrite <- orb_assoc in Hc. destruct (is_alpha c); [done|]. cbn [orb] in Hc. by rewrite Hc.
Qed.
Lemma getscheme_cases raw a b : getscheme raw = Some (a, b) ->
  (a = "" /\ b = raw) \/ (scheme_ok a /\ raw = a +:+ ":" +:+ b).
Proof.
  unfold getscheme. destruct (getscheme_go true raw) as [[[p q]|]|] eqn:E; [|intros [= <- <-]; auto|done].
  intros [= <- <-]. destruct raw as [|c s]; [done|]. cbn [getscheme_go] in E.
  destruct (is_alpha c) eqn:E1; [|destruct (is_digit c || is_one_of "+-." c) eqn:E2;
    [done|destruct (Ascii.eqb_spec c ":") as [->|]; done]].
  destruct (getscheme_go false s) as [[[p' q']|]|] eqn:Es; [|done..]. injection E as <- <-.
  destruct (getscheme_go_false _ _ _ Es) as [-> H]. right. split; [|by snorm]. by exists c, p'.
Qed.
Lemma getscheme_app p q : scheme_ok p -> getscheme (p +:+ ":" +:+ q) = Some (p, q).
Proof.
  intros (a & r & -> & Ha & Hr). unfold getscheme. rewrite app_cons_s. cbn [getscheme_go].
  by rewrite Ha, getscheme_go_app.
Qed.
Lemma getscheme_slash r : getscheme (String "/" r) = Some ("", String "/" r).
Proof. done. Qed.

Lemma lower_idem s : to_lower (to_lower s) = to_lower s.
Proof.
  unfold to_lower. induction s as [|c s IH]; [done|]. cbn. f_equal; [|done].
  apply Ascii.eqb_eq. revert c. apply ascii_forall. vm_compute. reflexivity.
Qed.
Lemma scheme_ok_lower s : scheme_ok s -> scheme_ok (to_lower s).
Proof.
  intros (a & r & -> & Ha & Hr). exists (lower_byte a), (to_lower r). split; [done|]. split.
  - assert (HH : negb (is_alpha a) || is_alpha (lower_byte a) = true) by (clear; revert a; apply ascii_forall; vm_compute; reflexivity).
    by rewrite Ha in HH.
  - clear Ha a. induction r as [|c r IH]; [done|]. cbn [all_bytes] in Hr. apply andb_true_iff in Hr as [Hc Hr].
    change (to_lower (String c r)) with (String (lower_byte c) (to_lower r)). cbn [all_bytes].
    rewrite IH, andb_true_r by done.
    assert (HH : negb (scheme_char c) || scheme_char (lower_byte c) = true) by (clear; revert c; apply ascii_forall; vm_compute; reflexivity).
    by rewrite Hc in HH.
Qed.
Lemma scheme_chars s : scheme_ok s -> all_bytes scheme_char s = true /\ s <> "".
Proof.
  intros (a & r & -> & Ha & Hr). split; [|done]. cbn. unfold scheme_char at 1. by rewrite Ha, Hr.
Qed.
Lemma scheme_no_ctl s : scheme_ok s -> no_ctl s = true.
Proof.
  intros [H _]%scheme_chars. eapply all_bytes_impl; [|exact H]. intros c Hc.
  assert (HH : negb (scheme_char c) || negb (is_ctl c) = true) by (clear; revert c; apply ascii_forall; vm_compute; reflexivity).
  by rewrite Hc in HH.
Qed.

Definition abs_path (p : string) : Prop := exists r, p = String "/" r.
Lemma abs_strip p : abs_path p <-> exists r, strip_prefix "/" p = Some r.
Proof. split; intros [r H]; exists r; by apply (strip_prefix_some "/"). Qed.

(** The path part of a printed URL. *)
Definition path_ok (path rawpath : string) : Prop :=
  exists p, set_escaped EncPath p = Some (path, rawpath) /\ (p = "" \/ abs_path p).
Lemma escaped_path_ok u : path_ok (u_path u) (u_rawpath u) ->
  let ep := escaped_path u in
  unescape EncPath ep = Some (u_path u) /\ no_ctl ep = true /\ contains "?" ep = false /\
  contains "#" ep = false /\ ((ep = "" /\ u_path u = "") \/ (abs_path ep /\ abs_path (u_path u))).
Proof.
  intros (p & Hp & Hsl). cbv zeta. unfold set_escaped in Hp.
  destruct (unescape EncPath p) as [path|] eqn:Ep; [|done]. injection Hp as E1 E2.
  assert (Hpath : (p = "" /\ path = "") \/ (abs_path p /\ abs_path path)).
  { destruct Hsl as [->|[r ->]]; [left; split; [done|]; cbn in Ep; congruence|]. right. split; [by eexists|].
    apply unescape_inv in Ep as [[? _]|(c & r' & t & Hs & _ & ->)]; [done|]. exists t. f_equal.
    inversion Hs; subst; done. }
  unfold escaped_path, escaped_hint. rewrite <- E1, <- E2.
  assert (Hesc : unescape EncPath (escape EncPath path) = Some path /\ no_ctl (escape EncPath path) = true /\
     contains "?" (escape EncPath path) = false /\ contains "#" (escape EncPath path) = false /\
     ((escape EncPath path = "" /\ path = "") \/ (abs_path (escape EncPath path) /\ abs_path path))).
  { split; [by apply unescape_escape|]. split; [apply escape_no_ctl|]. 
    split; [apply escape_never; intros c; apply negb_true_iff; revert c; apply ascii_forall; vm_compute; reflexivity|].
    split; [apply escape_never; intros c; apply negb_true_iff; revert c; apply ascii_forall; vm_compute; reflexivity|].
    destruct Hpath as [[_ ->]|[_ [r ->]]]; [by left|]. right. split; [|by eexists]. rewrite escape_cons. by eexists. }
  assert (Hstar : seqb path "*" = false).
  { apply seqb_false. intros ->. destruct Hpath as [[_ ?]|[_ [r ?]]]; done. }
  destruct (seqb p (escape EncPath path)) eqn:Ee.
  - cbn [seqb negb andb]. change (negb (seqb "" "")) with false. cbn [andb]. by rewrite Hstar.
  - destruct (negb (seqb p "") && valid_encoded EncPath p) eqn:Ev; [|by rewrite Hstar].
    rewrite Ep, seqb_refl. apply andb_true_iff in Ev as [_ Ev].
    assert (Hb : forall c, (is_one_of "!$&'()*+,;=:@[]%" c || negb (should_escape EncPath c)) = true ->
       negb (is_ctl c) && negb (Ascii.eqb c "?") && negb (Ascii.eqb c "#") = true).
    { intros c Hc. assert (HH : negb (is_one_of "!$&'()*+,;=:@[]%" c || negb (should_escape EncPath c)) ||
         (negb (is_ctl c) && negb (Ascii.eqb c "?") && negb (Ascii.eqb c "#")) = true)
        by (clear; revert c; apply ascii_forall; vm_compute; reflexivity).
      by rewrite Hc in HH. }
    split; [done|]. split; [|split; [|split; [|done]]].
    + eapply all_bytes_impl; [|exact Ev]. intros c Hc%Hb. rewrite !andb_true_iff in Hc. tauto.
    + eapply all_bytes_not_contains; [exact Ev|]. vm_compute. reflexivity.
    + eapply all_bytes_not_contains; [exact Ev|]. vm_compute. reflexivity.
Qed.

(** What ParseRequestURI can return, apart from the URL of "*". *)
Inductive url_shape : url -> Prop :=
| shape_opaque sch op fq rq :
    scheme_ok sch -> to_lower sch = sch -> no_ctl op = true -> contains "?" op = false ->
    strip_prefix "/" op = None ->
    url_shape (mk_url sch op None "" "" "" fq rq)
| shape_path path rawpath fq rq :
    path_ok path rawpath -> abs_path path -> url_shape (mk_url "" "" None "" path rawpath fq rq)
| shape_auth sch user host path rawpath fq rq :
    scheme_ok sch -> to_lower sch = sch -> parse_host (escape EncHost host) = Some host ->
    path_ok path rawpath ->
    url_shape (mk_url sch "" user host path rawpath fq rq).

Lemma set_escaped_abs p path rawpath : set_escaped EncPath p = Some (path, rawpath) -> abs_path p -> abs_path path.
Proof.
  unfold set_escaped. destruct (unescape EncPath p) as [t|] eqn:E; [|done]. intros [= <- _] [r ->].
  apply unescape_inv in E as [[? _]|(c & r' & t' & Hs & _ & ->)]; [done|]. exists t'. f_equal. inversion Hs; subst; done.
Qed.

Lemma parse_shape raw u : parse_request_uri raw = Some u -> raw <> "*" -> ascii_only raw = true -> url_shape u.
Proof.
  intros H Hstar Hascii. unfold parse_request_uri, parse_url in H.
  destruct (all_bytes (fun c => negb (is_ctl c)) raw) eqn:Ectl; [|done]. cbn [negb] in H.
  destruct (seqb raw "" && true) eqn:Ee; [done|].
  destruct (seqb raw "*") eqn:Es; [by apply seqb_true in Es|].
  destruct (getscheme raw) as [[scheme0 rest0]|] eqn:Eg; [|done].
  destruct (match cut "?" rest0 with Some (x, "") => (x, true, "") | Some (x, q) => (x, false, q) | None => (rest0, false, "") end)
    as [[rest fq] rq] eqn:Ecut.
  assert (Hrest : contains "?" rest = false /\ exists y, rest0 = rest +:+ y).
  { destruct (cut "?" rest0) as [[x q]|] eqn:Ec.
    - apply cut_some in Ec as [-> Hx]. destruct q; injection Ecut as <- _ _; (split; [done|by eexists]).
    - apply cut_none in Ec. injection Ecut as <- _ _. split; [done|]. exists "". by rewrite app_nil_r_s. }
  destruct Hrest as [Hq [y Hy]].
  assert (Hrest : no_ctl rest = true /\ ascii_only rest = true).
  { change (no_ctl raw = true) in Ectl.
    destruct (getscheme_cases _ _ _ Eg) as [[_ ->]|[_ ->]]; subst;
      rewrite ?no_ctl_app, ?ascii_only_app, ?andb_true_iff in *; tauto. }
  destruct Hrest as [Hctl Hasc].
  assert (Hsch : (to_lower scheme0 = "" /\ scheme0 = "") \/ (scheme_ok (to_lower scheme0) /\ seqb (to_lower scheme0) "" = false)).
  { destruct (getscheme_cases _ _ _ Eg) as [[-> _]|[Hs _]]; [by left|]. right. split; [by apply scheme_ok_lower|].
    apply scheme_ok_lower in Hs. apply scheme_chars in Hs as [_ Hs]. by apply seqb_false. }
  set (scheme := to_lower scheme0) in *.
  assert (Hlow : to_lower scheme = scheme) by apply lower_idem.
  destruct (strip_prefix "/" rest) as [after1|] eqn:Erooted; cbn [negb andb] in H.
  2:{ destruct Hsch as [[-> _]|[Hok Hne]]; [done|]. rewrite Hne in H. cbn [negb] in H. injection H as <-. by constructor. }
  assert (Habs : abs_path rest) by (apply abs_strip; by eexists).
  assert (Hwith : forall user host p u, (p = "" \/ abs_path p) -> scheme_ok scheme ->
     parse_host (escape EncHost host) = Some host ->
     match set_escaped EncPath p with
     | Some (path, rawpath) => Some (mk_url scheme "" user host path rawpath fq rq)
     | None => None end = Some u -> url_shape u).
  { intros user host p u' Hp Hok Hh Hu. destruct (set_escaped EncPath p) as [[path rawpath]|] eqn:Ese; [|done].
    injection Hu as <-. constructor; [done..|]. by exists p. }
  assert (Hpath : forall u, scheme = "" \/ scheme_ok scheme ->
     match set_escaped EncPath rest with
     | Some (path, rawpath) => Some (mk_url scheme "" None "" path rawpath fq rq)
     | None => None end = Some u -> url_shape u).
  { intros u' [Hs|Hs] Hu.
    - destruct (set_escaped EncPath rest) as [[path rawpath]|] eqn:Ese; [|done]. injection Hu as <-. rewrite Hs.
      constructor; [exists rest; auto|by eapply set_escaped_abs].
    - eapply Hwith; [..|exact Hu]; auto. }
  assert (Hsch' : scheme = "" \/ scheme_ok scheme) by tauto.
  destruct (strip_prefix "//" rest) as [after|] eqn:Edbl; [|eapply Hpath; eauto].
  destruct (negb (seqb scheme "") || false) eqn:Ens; [|eapply Hpath; eauto].
  assert (Hok : scheme_ok scheme).
  { destruct Hsch as [[Hs _]|[Hs _]]; [|done]. rewrite Hs in Ens. done. }
  apply strip_prefix_some in Edbl.
  assert (Hafter : ascii_only after = true).
  { rewrite Edbl, ascii_only_app, andb_true_iff in Hasc. tauto. }
  destruct (match cut "/" after with Some (a, b) => (a, String "/" b) | None => (after, "") end) as [authority rest'] eqn:Eau.
  assert (Hau : ascii_only authority = true /\ (rest' = "" \/ abs_path rest')).
  { destruct (cut "/" after) as [[a b]|] eqn:Ec.
    - apply cut_some in Ec as [-> _]. injection Eau as <- <-. rewrite ascii_only_app, andb_true_iff in Hafter.
      split; [tauto|]. right. by eexists.
    - injection Eau as <- <-. auto. }
  destruct Hau as [Hau Hr'].
  destruct (parse_authority authority) as [[user host]|] eqn:Epa; [|done].
  eapply (Hwith user host rest'); [done|done| |exact H].
  unfold parse_authority in Epa. destruct (last_cut "@" authority) as [[ui hp]|] eqn:Elc.
  - destruct (parse_host hp) as [h|] eqn:Eh; [|done].
    assert (h = host) as ->.
    { destruct (valid_userinfo ui); [|done]. cbn [negb] in Epa. destruct (cut ":" ui) as [[n p]|].
      - destruct (unescape EncUserPassword n), (unescape EncUserPassword p); congruence.
      - destruct (unescape EncUserPassword ui); congruence. }
    eapply parse_host_roundtrip; [exact Eh|]. apply last_cut_some in Elc as [-> _].
    rewrite ascii_only_app, andb_true_iff in Hau. destruct Hau as [_ Hau]. cbn in Hau. exact Hau.
  - destruct (parse_host authority) as [h|] eqn:Eh; [|done]. injection Epa as _ ->.
    by eapply parse_host_roundtrip.
Qed.

(** Printing a parsed URL with another query and parsing it again. *)
Definition same_but_query (u u' : url) : Prop :=
  u_scheme u' = u_scheme u /\ u_opaque u' = u_opaque u /\ u_user u' = u_user u /\
  u_host u' = u_host u /\ u_path u' = u_path u.

Lemma userinfo_chars ui : valid_userinfo (userinfo_string ui) = true /\ contains "@" (userinfo_string ui) = false /\
  contains "/" (userinfo_string ui) = false /\ contains "?" (userinfo_string ui) = false /\
  contains "#" (userinfo_string ui) = false /\ no_ctl (userinfo_string ui) = true.
Proof.
  assert (Hv : forall s, valid_userinfo (escape EncUserPassword s) = true).
  { intros s. apply all_bytes_flat_map. intros c. change (valid_userinfo (escape_byte EncUserPassword c) = true).
    revert c; apply ascii_forall; vm_compute; reflexivity. }
  assert (Hn : forall d s, is_one_of "@/?#" d = true -> contains d (escape EncUserPassword s) = false).
  { intros d s Hd. apply contains_true in Hd. cbn in Hd.
    repeat (destruct Hd as [<-|Hd]; [apply escape_never; intros c; apply negb_true_iff; revert c; apply ascii_forall; vm_compute; reflexivity|]).
    done. }
  unfold userinfo_string. destruct (ui_password ui) as [p|].
  - rewrite !contains_app, !no_ctl_app, !escape_no_ctl, !Hn by done. unfold valid_userinfo. rewrite !all_bytes_app.
    fold (valid_userinfo (escape EncUserPassword (ui_name ui))). fold (valid_userinfo (escape EncUserPassword p)).
    rewrite !Hv. done.
  - rewrite !Hn, Hv, escape_no_ctl by done. done.
Qed.
Lemma host_chars h : contains "@" (escape EncHost h) = false /\ contains "/" (escape EncHost h) = false /\
  contains "?" (escape EncHost h) = false /\ contains "#" (escape EncHost h) = false /\ no_ctl (escape EncHost h) = true.
Proof.
  assert (Hn : forall d, is_one_of "@/?#" d = true -> contains d (escape EncHost h) = false).
  { intros d Hd. apply contains_true in Hd. cbn in Hd.
    repeat (destruct Hd as [<-|Hd]; [apply escape_never; intros c; apply negb_true_iff; revert c; apply ascii_forall; vm_compute; reflexivity|]).
    done. }
  rewrite !Hn by done. by rewrite escape_no_ctl.
Qed.

Definition auth_text (user : option userinfo) (host : string) : string :=
  match user with Some ui => userinfo_string ui +:+ "@" | None => "" end +:+ escape EncHost host.
Lemma parse_auth_text user host : parse_host (escape EncHost host) = Some host ->
  parse_authority (auth_text user host) = Some (user, host).
Proof.
  intros Hh. pose proof (host_chars host) as (H1 & _). unfold parse_authority, auth_text. destruct user as [ui|].
  - rewrite app_assoc_s. change ("@" +:+ escape EncHost host) with (String "@" (escape EncHost host)).
    rewrite last_cut_app by done. rewrite Hh.
    destruct (userinfo_chars ui) as (Hv & _). rewrite Hv. cbn [negb].
    unfold userinfo_string. destruct ui as [n [p|]]; cbn [ui_password ui_name].
    + change (":" +:+ escape EncUserPassword p) with (String ":" (escape EncUserPassword p)).
      rewrite cut_app, !unescape_escape; [done..|].
      apply escape_never; intros c; apply negb_true_iff; revert c; apply ascii_forall; vm_compute; reflexivity.
    + assert (cut ":" (escape EncUserPassword n) = None) as ->.
      { apply cut_none. apply escape_never; intros c; apply negb_true_iff; revert c; apply ascii_forall; vm_compute; reflexivity. }
      by rewrite unescape_escape.
  - rewrite app_nil_s. assert (last_cut "@" (escape EncHost host) = None) as -> by by apply last_cut_none.
    by rewrite Hh.
Qed.
Lemma auth_text_chars user host : contains "/" (auth_text user host) = false /\
  contains "?" (auth_text user host) = false /\ contains "#" (auth_text user host) = false /\ no_ctl (auth_text user host) = true.
Proof.
  pose proof (host_chars host) as (_ & H2 & H3 & H4 & H5). unfold auth_text. destruct user as [ui|].
  - pose proof (userinfo_chars ui) as (_ & _ & U2 & U3 & U4 & U5).
    by rewrite !contains_app, !no_ctl_app, H2, H3, H4, H5, U2, U3, U4, U5.
  - by rewrite app_nil_s.
Qed.

Definition query_tail (fq : bool) (q : string) : string := if fq || negb (seqb q "") then "?" +:+ q else "".
Lemma cut_tail rest fq q : contains "?" rest = false -> exists fq',
  match cut "?" (rest +:+ query_tail fq q) with Some (x, "") => (x, true, "") | Some (x, q) => (x, false, q)
   | None => (rest +:+ query_tail fq q, false, "") end = (rest, fq', q).
Proof.
  intros Hr. unfold query_tail. destruct (fq || negb (seqb q "")) eqn:E.
  - change ("?" +:+ q) with (String "?" q). rewrite cut_app by done. destruct q; eauto.
  - apply orb_false_iff in E as [_ ->%negb_seqb_false]. rewrite app_nil_r_s.
    destruct (cut "?" rest) eqn:Ec; [|eauto]. apply cut_none in Hr. congruence.
Qed.

Lemma parse_known raw scheme rest fq q :
  no_ctl raw = true -> raw <> "" -> raw <> "*" -> getscheme raw = Some (scheme, rest +:+ query_tail fq q) ->
  to_lower scheme = scheme -> contains "?" rest = false -> exists fq',
  parse_request_uri raw =
  (let rooted := match strip_prefix "/" rest with Some _ => true | None => false end in
   if negb rooted && negb (seqb scheme "") then Some (mk_url scheme rest None "" "" "" fq' q)
   else if negb rooted then None
   else match strip_prefix "//" rest with
        | Some after =>
            if negb (seqb scheme "") then
              let '(authority, rest') :=
                match cut "/" after with Some (a, b) => (a, String "/" b) | None => (after, "") end in
              match parse_authority authority with
              | Some (user, host) =>
                  match set_escaped EncPath rest' with
                  | Some (path, rawpath) => Some (mk_url scheme "" user host path rawpath fq' q)
                  | None => None
                  end
              | None => None
              end
            else match set_escaped EncPath rest with
                 | Some (path, rawpath) => Some (mk_url scheme "" None "" path rawpath fq' q)
                 | None => None
                 end
        | None => match set_escaped EncPath rest with
                 | Some (path, rawpath) => Some (mk_url scheme "" None "" path rawpath fq' q)
                 | None => None
                 end
        end).
Proof.
  intros Hctl Hne Hst Hg Hlow Hq. destruct (cut_tail rest fq q Hq) as [fq' Hcut]. exists fq'.
  unfold parse_request_uri, parse_url. fold (no_ctl raw). rewrite Hctl. cbn [negb].
  apply seqb_false in Hne, Hst. rewrite Hne, Hst, Hg, Hcut, Hlow. cbn [andb].
  destruct (strip_prefix "/" rest); cbn [negb andb orb]; [|by destruct (seqb scheme "")].
  rewrite orb_false_r. done.
Qed.

Lemma shape_reparse u q : url_shape u -> no_ctl q = true ->
  exists u', parse_request_uri (url_string (set_rawquery u q)) = Some u' /\ same_but_query u u' /\ u_rawquery u' = q.
Proof.
  intros Hs Hq.
  assert (Htail : forall fq, no_ctl (query_tail fq q) = true).
  { intros fq. unfold query_tail. destruct (fq || _); [|done]. by rewrite no_ctl_app, Hq. }
  assert (Hstr : u_fragment u = "" -> url_string (set_rawquery u q) = url_base u +:+ query_tail (u_forcequery u) q).
  { intros Hf. unfold url_string. cbn [set_rawquery u_forcequery u_rawquery u_fragment]. rewrite Hf.
    change (seqb "" "") with true. cbn iota. by rewrite app_nil_r_s. }
  rewrite Hstr by (by destruct Hs). clear Hstr.
  assert (Hop : forall sch op fq, scheme_ok sch -> to_lower sch = sch -> no_ctl op = true -> contains "?" op = false ->
     strip_prefix "/" op = None -> exists fq', parse_request_uri ((sch +:+ ":" +:+ op) +:+ query_tail fq q)
       = Some (mk_url sch op None "" "" "" fq' q)).
  { intros sch op fq Hok Hlow Hctl Hnq Hns. pose proof (scheme_chars _ Hok) as [_ Hne].
    destruct (parse_known ((sch +:+ ":" +:+ op) +:+ query_tail fq q) sch op fq q) as [fq' Hp].
    - rewrite !no_ctl_app, (scheme_no_ctl sch), Hctl, Htail by done; done.
    - intros H. apply app_eq_nil in H as [H _]. apply app_eq_nil in H as [H _]. done.
    - destruct Hok as (a & r & -> & Ha & _). rewrite !app_cons_s. intros [= -> _]. done.
    - rewrite !app_assoc_s. by apply getscheme_app.
    - done.
    - done.
    - exists fq'. rewrite Hp, Hns. cbn [negb andb]. apply seqb_false in Hne. by rewrite Hne. }
  destruct Hs as [sch op fq rq Hok Hlow Hctl Hnq Hns|path rawpath fq rq Hpath Habs|sch user host path rawpath fq rq Hok Hlow Hh Hpath].
  - assert (url_base (mk_url sch op None "" "" "" fq rq) = sch +:+ ":" +:+ op) as ->.
    { unfold url_base. cbn [u_scheme u_opaque mk_url u_user u_host u_path].
      pose proof (scheme_chars _ Hok) as [_ Hne%seqb_false]. rewrite Hne. cbn [negb orb].
      destruct (seqb op "") eqn:Eo; cbn [negb]; [|by snorm].
      apply seqb_true in Eo as ->. change (escaped_path _) with "". change (seqb "" "") with true. cbn [negb orb].
      change (first_segment_colon "") with false. rewrite andb_false_r. change (escape EncHost "") with "". by rewrite !app_nil_r_s. }
    destruct (Hop sch op fq Hok Hlow Hctl Hnq Hns) as [fq' Hp]. eexists. split; [exact Hp|]. done.
  - set (u := mk_url "" "" None "" path rawpath fq rq).
    destruct (escaped_path_ok u Hpath) as (Hun & Hctl & Hnq & _ & Hcase). cbn [u u_path mk_url] in *.
    destruct Hcase as [[_ ->]|[[r Hr] _]]; [by destruct Habs|].
    assert (url_base u = escaped_path u) as ->.
    { unfold url_base. cbn [u u_scheme u_opaque mk_url u_user u_host u_path].
      change (seqb "" "") with true. cbn [negb orb andb]. fold u. rewrite Hr.
      cbn [Ascii.eqb]. change (Ascii.eqb "/" "/") with true. cbn. done. }
    destruct (parse_known (escaped_path u +:+ query_tail fq q) "" (escaped_path u) fq q) as [fq' Hp].
    + by rewrite no_ctl_app, Hctl, Htail.
    + rewrite Hr, app_cons_s. done.
    + rewrite Hr, app_cons_s. done.
    + rewrite Hr, app_cons_s. apply getscheme_slash.
    + done.
    + done.
    + cbn [u_forcequery u mk_url]. fold u. rewrite Hp. assert (strip_prefix "/" (escaped_path u) = Some r) as -> by by apply strip_prefix_some.
      cbn [negb andb]. unfold set_escaped. rewrite Hun. change (seqb "" "") with true. cbn [negb].
      destruct (strip_prefix "//" (escaped_path u)); (eexists; split; [reflexivity|]; done).
  - set (u := mk_url sch "" user host path rawpath fq rq).
    destruct (escaped_path_ok u Hpath) as (Hun & Hctl & Hnq & _ & Hcase). cbn [u u_path mk_url] in Hun, Hcase.
    pose proof (scheme_chars _ Hok) as [_ Hne]. pose proof (proj2 (seqb_false _ _) Hne) as Hne'.
    destruct (auth_text_chars user host) as (A1 & A2 & _ & A4).
    set (dbl := negb (seqb host "") || negb (seqb path "") || match user with Some _ => true | None => false end).
    assert (Hbase : url_base u = sch +:+ ":" +:+ (if dbl then "//" else "") +:+ auth_text user host +:+ escaped_path u).
    { unfold url_base. cbn [u u_scheme u_opaque mk_url u_user u_host u_path]. fold u. rewrite Hne'.
      change (seqb "" "") with true. cbn [negb orb andb]. fold dbl. fold (auth_text user host).
      assert (forall x, match escaped_path u with
         | "" => "" | String c _ => if negb (Ascii.eqb c "/") && x then "/" else "" end = "") as ->.
      { intros x. destruct Hcase as [[-> _]|[[r ->] _]]; [done|]. change (Ascii.eqb "/" "/") with true. done. }
      assert (seqb ((sch +:+ ":") +:+ ((if dbl then "//" else "") +:+ auth_text user host) +:+ "") "" = false) as ->.
      { apply seqb_false. intros H. apply app_eq_nil in H as [H _]. apply app_eq_nil in H as [H _]. done. }
      cbn [andb]. by snorm. }
    destruct dbl eqn:Ed.
    + destruct (parse_known (url_base u +:+ query_tail fq q) sch ("//" +:+ auth_text user host +:+ escaped_path u) fq q) as [fq' Hp].
      * rewrite Hbase, !no_ctl_app, (scheme_no_ctl sch), A4, Hctl, Htail by done. done.
      * rewrite Hbase. intros H. apply app_eq_nil in H as [H _]. apply app_eq_nil in H as [H _]. done.
      * rewrite Hbase. destruct Hok as (a & r & -> & Ha & _). rewrite !app_cons_s. intros [= -> _]. done.
      * rewrite Hbase, !app_assoc_s. by apply getscheme_app.
      * done.
      * rewrite !contains_app, A2, Hnq. done.
      * cbn [u_forcequery u mk_url]. fold u. rewrite Hp.
        assert (strip_prefix "/" ("//" +:+ auth_text user host +:+ escaped_path u) = Some ("/" +:+ auth_text user host +:+ escaped_path u)) as ->.
        { by apply strip_prefix_some. }
        rewrite strip_prefix_app, Hne'. cbn [negb andb].
        assert (Hcut : match cut "/" (auth_text user host +:+ escaped_path u) with
            | Some (a, b) => (a, String "/" b) | None => (auth_text user host +:+ escaped_path u, "") end
            = (auth_text user host, escaped_path u)).
        { destruct Hcase as [[E _]|[[r E] _]]; rewrite E.
          - rewrite app_nil_r_s. destruct (cut "/" (auth_text user host)) as [[]|] eqn:Ec; [|done].
            apply cut_none in A1. congruence.
          - by rewrite cut_app. }
        rewrite Hcut, parse_auth_text by done. unfold set_escaped. rewrite Hun. eexists; split; [reflexivity|]. done.
    + unfold dbl in Ed. rewrite !orb_false_iff, !negb_seqb_false in Ed. destruct Ed as [[-> ->] Hu].
      destruct user; [done|]. destruct Hcase as [[E _]|[_ [r ?]]]; [|done].
      rewrite E in Hbase. change (url_base u = sch +:+ ":" +:+ "") in Hbase. rewrite Hbase.
      destruct (Hop sch "" fq Hok Hlow eq_refl eq_refl eq_refl) as [fq' Hp]. eexists. split; [exact Hp|]. done.
Qed.
