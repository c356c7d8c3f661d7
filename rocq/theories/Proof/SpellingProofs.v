(** C04: all accepted spellings of a token. *)
From Coq Require Import ZifyNat.
From Verif.Model Require Import Hs256.
From Verif.Spec Require Import TokenSpec SpellingSpec.
From Verif.Proof Require Import StrFacts Base64Facts HsFacts TokenProofs.

Lemma bits_of_sextets_app a b : bits_of_sextets (a ++ b) = bits_of_sextets a ++ bits_of_sextets b.
Proof. unfold bits_of_sextets. apply flat_map_app. Qed.

Lemma take_more {A} (l k : list A) n m : length l = n -> take (n + m) (l ++ k) = l ++ take m k.
Proof. intros <-. induction l as [|x l IH]; [done|]. cbn. by rewrite IH. Qed.

(** The bits of a sextet but the spare ones. *)
Definition check_spare (z : nat) : bool :=
  forallb (fun v => forallb (fun w =>
    Bool.eqb (bool_decide (take (6 - z) (bits 6 (N.of_nat v)) = take (6 - z) (bits 6 (N.of_nat w))))
             (Nat.eqb (v / 2 ^ z) (w / 2 ^ z))) (seq 0 64)) (seq 0 64).
Lemma spare_spec z v w : (z = 0 \/ z = 2 \/ z = 4) -> v < 64 -> w < 64 ->
  (take (6 - z) (bits 6 (N.of_nat v)) = take (6 - z) (bits 6 (N.of_nat w)) <-> v / 2 ^ z = w / 2 ^ z).
Proof.
  intros Hz Hv Hw. assert (H : check_spare z = true).
  { destruct Hz as [-> | [-> | ->]]; vm_compute; reflexivity. }
  unfold check_spare in H. rewrite forallb_forall in H. specialize (H v). rewrite forallb_forall in H.
  specialize (H ltac:(apply in_seq; lia) w ltac:(apply in_seq; lia)). apply eqb_prop in H.
  rewrite <- Nat.eqb_eq, <- H. by rewrite bool_decide_eq_true.
Qed.

(** How many bits of [n] characters make up whole bytes. *)
Lemma whole_bits n : Nat.modulo n 4 <> 1 -> 0 < n -> 8 * (n * 6 / 8) = 6 * (n - 1) + (6 - spare_bits n) /\
  (spare_bits n = 0 \/ spare_bits n = 2 \/ spare_bits n = 4).
Proof.
  intros Hn Hp. unfold spare_bits. pose proof (Nat.div_mod n 4 ltac:(lia)) as Hd.
  pose proof (Nat.mod_upper_bound n 4 ltac:(lia)) as Hb.
  set (q := n / 4) in *. set (r := n mod 4) in *. clearbody q r.
  assert (He : n * 6 / 8 = 3 * q + r * 6 / 8).
  { subst n. replace ((4 * q + r) * 6) with (r * 6 + (3 * q) * 8) by lia. rewrite Nat.div_add by lia. lia. }
  rewrite He. destruct r as [|[|[|[|r]]]]; try lia; try done; cbn [Nat.mul Nat.add Nat.div Nat.divmod fst Nat.sub]; split; try lia.
Qed.

Lemma denotes_length s k vs : Nat.modulo (length vs) 4 <> 1 ->
  bits_of_bytes k = take (8 * (length vs * 6 / 8)) (bits_of_sextets vs) ->
  s = length vs -> slen k = s * 6 / 8.
Proof.
  intros Hm Hb ->. apply (f_equal length) in Hb. rewrite take_length, length_bits_of_bytes, length_bits_of_sextets in Hb.
  assert (8 * (length vs * 6 / 8) <= 6 * length vs) by (pose proof (Nat.mul_div_le (length vs * 6) 8 ltac:(lia)); lia). lia.
Qed.
Lemma same_count n m : Nat.modulo n 4 <> 1 -> Nat.modulo m 4 <> 1 -> n * 6 / 8 = m * 6 / 8 -> n = m.
Proof.
  intros Hn Hm H. destruct (decide (n = 0)) as [->|]; destruct (decide (m = 0)) as [->|]; [done| | |].
  - destruct (whole_bits m Hm ltac:(lia)) as [E E']. change (0 * 6 / 8) with 0 in H. rewrite <- H in E.
    destruct m as [|[|m]]; [done|done|lia].
  - destruct (whole_bits n Hn ltac:(lia)) as [E E']. change (0 * 6 / 8) with 0 in H. rewrite H in E.
    destruct n as [|[|n]]; [done|done|lia].
  - destruct (whole_bits n Hn ltac:(lia)) as [E1 E1']. destruct (whole_bits m Hm ltac:(lia)) as [E2 E2'].
    rewrite H in E1. rewrite E1 in E2. lia.
Qed.

Lemma sextets_fun l vs vs' : Forall2 sextet l vs -> Forall2 sextet l vs' -> vs = vs'.
Proof.
  intros H. revert vs'. induction H as [|c v l vs Hc H IH]; intros vs' H'; inversion H' as [|? v' ? vs'' Hc' Hl]; subst; [done|].
  unfold sextet in *. assert (v = v') as <- by congruence. f_equal. auto.
Qed.
Lemma bits_sextets_inj vs vs' : Forall (fun v => v < 64) vs -> Forall (fun v => v < 64) vs' ->
  bits_of_sextets vs = bits_of_sextets vs' -> vs = vs'.
Proof.
  intros H. revert vs'. induction H as [|v vs Hv H IH]; intros vs' H' E.
  - destruct vs' as [|v' vs']; [done|]. apply (f_equal length) in E. rewrite bits_of_sextets_cons, app_length, length_bits in E. discriminate.
  - destruct vs' as [|v' vs']; rewrite ?bits_of_sextets_cons in E.
    + apply (f_equal length) in E. rewrite app_length, length_bits in E. discriminate.
    + inversion H' as [|? ? Hv' Hl']; subst. apply app_inj_1 in E as [E1 E2]; [|by rewrite !length_bits].
      apply bits6_inj in E1; [|done..]. subst. f_equal. by apply IH.
Qed.
Lemma sextets_small l vs : Forall2 sextet l vs -> Forall (fun v => v < 64) vs.
Proof. induction 1; constructor; [by eapply sextet_lt|done]. Qed.

Lemma denotes_respells s k : b64url_denotes s k <-> respells s (rawurl_encode k).
Proof.
  assert (Hc : b64url_denotes (rawurl_encode k) k) by (apply rawurl_decode_spec, rawurl_roundtrip).
  destruct Hc as (us & Hu & Hum & Hub).
  assert (Hclean : List.filter (fun c => negb (is_line_break c)) (chars (rawurl_encode k)) = chars (rawurl_encode k)).
  { destruct (rawurl_encode_canonical k) as (vs & z & Hv & _). clear -Hv. induction Hv as [|c v l vs Hc Hv IH]; [done|]. cbn.
    rewrite IH. replace (is_line_break c) with false; [done|]. symmetry. apply not_true_iff_false. intros Hb.
    unfold is_line_break in Hb. apply orb_true_iff in Hb as [Hb|Hb]; apply Ascii.eqb_eq in Hb; subst c; vm_compute in Hc; discriminate Hc. }
  rewrite Hclean in Hu. clear Hclean. unfold b64url_denotes, respells. cbv zeta.
  set (rest := List.filter (fun c => negb (is_line_break c)) (chars s)). clearbody rest.
  generalize dependent (chars (rawurl_encode k)). intros cs Hu.
  pose proof (denotes_length _ _ _ Hum Hub eq_refl) as Hlen. split.
  - intros (vs & Hv & Hvm & Hvb). pose proof (denotes_length _ _ _ Hvm Hvb eq_refl) as Hlen'.
    assert (Hn : length vs = length us) by (apply same_count; [done|done|lia]).
    pose proof (Forall2_length _ _ _ Hv) as Hrl. pose proof (Forall2_length _ _ _ Hu) as Hcl.
    destruct (decide (length vs = 0)) as [Hz|Hz].
    { left. destruct rest; [|cbn in Hrl; lia]. destruct cs; [done|cbn in Hcl; lia]. }
    right. rewrite Hrl. destruct (whole_bits _ Hvm ltac:(lia)) as [Hw Hs].
    rewrite <- Hn, Hvb, Hw in Hub. clear Hvb Hlen Hlen' Hum.
    destruct (exists_last (l := rest)) as (l & x & ->); [intros ->; cbn in Hrl; lia|].
    destruct (exists_last (l := cs)) as (l' & y & ->); [intros ->; cbn in Hcl; lia|].
    apply Forall2_app_inv_l in Hv as (vs0 & vx & Hv0 & Hvx & ->). inversion Hvx as [|? v ? ? Hx Hn1]; subst. inversion Hn1; subst.
    apply Forall2_app_inv_l in Hu as (us0 & ux & Hu0 & Hux & ->). inversion Hux as [|? w ? ? Hy Hn2]; subst. inversion Hn2; subst.
    rewrite !app_length in *. cbn [length] in *. replace (length vs0 + 1 - 1) with (length vs0) in Hub by lia.
    rewrite !bits_of_sextets_app in Hub.
    assert (Hl0 : length us0 = length vs0) by lia.
    rewrite !take_more in Hub by (rewrite length_bits_of_sextets; lia).
    apply app_inj_1 in Hub as [E1 E2]; [|rewrite !length_bits_of_sextets; lia].
    apply bits_sextets_inj in E1; [|by eapply sextets_small..]. subst us0.
    exists l, x, y, v, w. split; [done|]. split.
    { f_equal. eapply sextets_inj; [exact Hu0|exact Hv0|done]. }
    split; [done|]. split; [done|]. apply spare_spec; [done|by eapply sextet_lt..|].
    cbn [bits_of_sextets flat_map] in E2. rewrite !app_nil_r in E2. exact E2.
  - intros [->|(l & x & y & v & w & -> & -> & Hx & Hy & He)].
    + exists us. done.
    + apply Forall2_app_inv_l in Hu as (us0 & ux & Hu0 & Hux & ->). inversion Hux as [|? w' ? ? Hy' Hn2]; subst. inversion Hn2; subst.
      assert (w' = w) as -> by (unfold sextet in *; congruence).
      pose proof (Forall2_length _ _ _ Hu0) as Hl0. rewrite !app_length in *. cbn [length] in *.
      exists (us0 ++ [v]). split; [apply Forall2_app; [done|by repeat constructor]|].
      rewrite app_length. cbn [length]. split; [done|]. rewrite Hub.
      destruct (whole_bits _ Hum ltac:(lia)) as [Hw Hs]. rewrite Hw.
      replace (length us0 + 1 - 1) with (length us0) by lia. rewrite !bits_of_sextets_app.
      rewrite !take_more by (by rewrite length_bits_of_sextets).
      f_equal. cbn [bits_of_sextets flat_map]. rewrite !app_nil_r. rewrite Hl0 in He.
      symmetry. apply spare_spec; [done|by eapply sextet_lt..|done].
Qed.

Lemma c04_exact : forall secret s t,
  parse_token secret s = inl t <->
  hs_signature t = hmac_sha256 secret (hs_key t) /\
  exists s0 s1, two_segments s s0 s1 /\ respells s0 (key_string t) /\ respells s1 (signature_string t).
Proof.
  intros secret s t. rewrite c02_accept. unfold key_string, signature_string. setoid_rewrite denotes_respells. naive_solver.
Qed.
