(** Facts about Model/Hs256.v. *)
From Verif.Model Require Import Hs256.
From Verif.Spec Require Import TokenSpec.
From Verif.Proof Require Import StrFacts Base64Facts.

(** ** HMAC-SHA256 gives 32 bytes *)

Lemma slen_of_bytes l : slen (of_bytes l) = length l.
Proof. unfold of_bytes. induction l; cbn; congruence. Qed.
Lemma sha256_bytes_length m : length (sha256_bytes m) = 32.
Proof. reflexivity. Qed.
Lemma hmac_length secret key : slen (hmac_sha256 secret key) = 32.
Proof. unfold hmac_sha256. rewrite slen_of_bytes. apply sha256_bytes_length. Qed.
Global Opaque hmac_sha256.

(** ** Reading *)

Lemma read_full_spec n src :
  (n <= slen src -> exists k rest, read_full n src = Some (k, rest) /\ src = k +:+ rest /\ slen k = n)
  /\ (slen src < n -> read_full n src = None).
Proof.
  revert src. induction n as [|n IH]; intros src.
  - split; [|lia]. intros _. exists "", src. destruct src; done.
  - destruct src as [|a src]; cbn [read_full String.length].
    + split; [lia|done].
    + destruct (IH src) as [H1 H2]. split.
      * intros H. destruct H1 as (k & rest & -> & -> & <-); [lia|].
        exists (String a k), rest. done.
      * intros H. by rewrite H2 by lia.
Qed.

(** ** Base64url against its bit-level specification *)

Lemma flat_map_cons {A B} (f : A -> list B) x l : flat_map f (x :: l) = f x ++ flat_map f l.
Proof. reflexivity. Qed.
Lemma flat_map_app {A B} (f : A -> list B) l k : flat_map f (l ++ k) = flat_map f l ++ flat_map f k.
Proof. induction l as [|x l IH]; [done|]. cbn. rewrite IH. by rewrite app_assoc. Qed.

Definition chars_app s t : chars (s +:+ t) = chars s ++ chars t.
Proof. unfold chars. induction s as [|a s IH]; [done|]. rewrite app_cons_s. cbn. by rewrite IH. Qed.

Lemma chars_in a s : In a (chars s) <-> s_in a s.
Proof. unfold chars. induction s as [|b s IH]; cbn; [done|]. by rewrite IH. Qed.

Lemma dec6_position c :
  dec6 url_alphabet c = option_map N.of_nat (position c (chars b64url_alphabet)).
Proof.
  enough ((match dec6 url_alphabet c, option_map N.of_nat (position c (chars b64url_alphabet)) with
           | Some a, Some b => (a =? b)%N | None, None => true | _, _ => false end) = true) as H.
  { destruct (dec6 url_alphabet c), (option_map _ _); try done. apply N.eqb_eq in H. congruence. }
  revert c. apply ascii_forall. vm_compute. reflexivity.
Qed.

Lemma position_lt c l v : position c l = Some v -> v < length l.
Proof.
  revert v. induction l as [|a l IH]; cbn; [done|]. intros v.
  destruct (Ascii.eqb a c); [intros [= <-]; lia|]. destruct (position c l) eqn:E; [|done].
  intros [= <-]. specialize (IH _ eq_refl). lia.
Qed.
Lemma dec6_sextet c v : dec6 url_alphabet c = Some v ->
  sextet c (N.to_nat v) /\ (v < 64)%N.
Proof.
  rewrite dec6_position. unfold sextet. destruct (position _ _) as [n|] eqn:E; [|discriminate].
  cbn. intros [= <-]. rewrite Nat2N.id. split; [done|]. apply position_lt in E.
  change (length _) with 64 in E. lia.
Qed.
Lemma dec6_none c : dec6 url_alphabet c = None -> forall v, ~ sextet c v.
Proof. rewrite dec6_position. unfold sextet. destruct (position _ _); cbn; congruence. Qed.

(** Bits of the three bytes of a quantum. *)
Lemma pair64 (f g : N -> N -> list bool) :
  forallb (fun x => forallb (fun y => bool_decide (f x y = g x y)) (below 64)) (below 64) = true ->
  forall x y, (x < 64)%N -> (y < 64)%N -> f x y = g x y.
Proof.
  intros H x y Hx Hy. pose proof (N_forall _ 64 H x Hx) as Hx'. cbv beta in Hx'.
  pose proof (N_forall _ 64 Hx' y Hy) as Hy'. cbv beta in Hy'.
  by apply bool_decide_eq_true in Hy'.
Qed.
Lemma single256 (f g : N -> list bool) :
  forallb (fun x => bool_decide (f x = g x)) (below 256) = true ->
  forall x, (x < 256)%N -> f x = g x.
Proof.
  intros H x Hx. pose proof (N_forall _ 256 H x Hx) as Hx'. cbv beta in Hx'.
  by apply bool_decide_eq_true in Hx'.
Qed.

Lemma q2_bits v1 v2 : (v1 < 64)%N -> (v2 < 64)%N ->
  bits 8 (N_of_ascii (q2 v1 v2)) = bits 6 v1 ++ take 2 (bits 6 v2).
Proof.
  revert v1 v2. refine (pair64 (fun v1 v2 => bits 8 (N_of_ascii (q2 v1 v2)))
    (fun v1 v2 => bits 6 v1 ++ take 2 (bits 6 v2)) _). vm_compute. reflexivity.
Qed.
Lemma q3_bits v2 v3 : (v2 < 64)%N -> (v3 < 64)%N ->
  bits 8 (N_of_ascii (q3 v2 v3)) = drop 2 (bits 6 v2) ++ take 4 (bits 6 v3).
Proof.
  revert v2 v3. refine (pair64 (fun v1 v2 => bits 8 (N_of_ascii (q3 v1 v2)))
    (fun v1 v2 => drop 2 (bits 6 v1) ++ take 4 (bits 6 v2)) _). vm_compute. reflexivity.
Qed.
Lemma q4_bits v3 v4 : (v3 < 64)%N -> (v4 < 64)%N ->
  bits 8 (N_of_ascii (q4 v3 v4)) = drop 4 (bits 6 v3) ++ bits 6 v4.
Proof.
  revert v3 v4. refine (pair64 (fun v1 v2 => bits 8 (N_of_ascii (q4 v1 v2)))
    (fun v1 v2 => drop 4 (bits 6 v1) ++ bits 6 v2) _). vm_compute. reflexivity.
Qed.

Lemma length_bits n v : length (bits n v) = n.
Proof. induction n; cbn; congruence. Qed.
Lemma bits8_inj a b : bits 8 (N_of_ascii a) = bits 8 (N_of_ascii b) -> a = b.
Proof.
  destruct a as [a0 a1 a2 a3 a4 a5 a6 a7], b as [b0 b1 b2 b3 b4 b5 b6 b7].
  assert (Hb : forall c0 c1 c2 c3 c4 c5 c6 c7, bits 8 (N_of_ascii (Ascii c0 c1 c2 c3 c4 c5 c6 c7))
               = [c7; c6; c5; c4; c3; c2; c1; c0]).
  { intros. destruct c0, c1, c2, c3, c4, c5, c6, c7; vm_compute; reflexivity. }
  rewrite !Hb. intros [=]. subst. reflexivity.
Qed.
Lemma bits_of_bytes_inj k k' : bits_of_bytes k = bits_of_bytes k' -> k = k'.
Proof.
  unfold bits_of_bytes, chars. revert k'. induction k as [|a k IH]; intros [|b k'];
    cbn [list_ascii_of_string]; rewrite ?flat_map_cons; intros H.
  - done.
  - apply (f_equal length) in H. rewrite app_length, length_bits in H. discriminate.
  - apply (f_equal length) in H. rewrite app_length, length_bits in H. discriminate.
  - apply app_inj_1 in H as [H1 H2]; [|by rewrite !length_bits].
    f_equal; [by apply bits8_inj|auto].
Qed.

Lemma string_ind4 (P : string -> Prop) :
  P "" -> (forall a, P (String a "")) -> (forall a b, P (String a (String b ""))) ->
  (forall a b c, P (String a (String b (String c "")))) ->
  (forall a b c d r, P r -> P (String a (String b (String c (String d r))))) -> forall s, P s.
Proof.
  intros H0 H1 H2 H3 H4. fix IH 1. intros [|a [|b [|c [|d r]]]];
    [exact H0|exact (H1 a)|exact (H2 a b)|exact (H3 a b c)|].
  exact (H4 a b c d r (IH r)).
Qed.

Definition clean_denotes (s k : string) : Prop :=
  exists vs : list nat, Forall2 sextet (chars s) vs /\ Nat.modulo (length vs) 4 <> 1 /\
    bits_of_bytes k = take (8 * (length vs * 6 / 8)) (bits_of_sextets vs).

Lemma bits_of_bytes_cons a k : bits_of_bytes (String a k) = bits 8 (N_of_ascii a) ++ bits_of_bytes k.
Proof. reflexivity. Qed.
Lemma bits_of_sextets_cons v vs : bits_of_sextets (v :: vs) = bits 6 (N.of_nat v) ++ bits_of_sextets vs.
Proof. reflexivity. Qed.

Lemma take_4quantum (vs : list nat) (v1 v2 v3 v4 : nat) :
  take (8 * (length (v1 :: v2 :: v3 :: v4 :: vs) * 6 / 8)) (bits_of_sextets (v1 :: v2 :: v3 :: v4 :: vs))
  = (bits 6 (N.of_nat v1) ++ bits 6 (N.of_nat v2) ++ bits 6 (N.of_nat v3) ++ bits 6 (N.of_nat v4))
    ++ take (8 * (length vs * 6 / 8)) (bits_of_sextets vs).
Proof.
  rewrite !bits_of_sextets_cons.
  replace (8 * (length (v1 :: v2 :: v3 :: v4 :: vs) * 6 / 8))
    with (24 + 8 * (length vs * 6 / 8)).
  2:{ cbn [length]. replace (S (S (S (S (length vs)))) * 6) with (length vs * 6 + 3 * 8) by lia.
      rewrite Nat.div_add by lia. lia. }
  rewrite !app_assoc. rewrite take_add_app; [done|]. rewrite !app_length, !length_bits. done.
Qed.

Lemma decode_clean_sound s k : b64_decode_clean url_alphabet false s = Some k -> clean_denotes s k.
Proof.
  revert k. induction s as [|a|a b|a b c|a b c d r IH] using string_ind4; intros k;
    cbn [b64_decode_clean].
  - intros [= <-]. exists []. split; [constructor|]. done.
  - destruct (dec6 _ a); discriminate.
  - destruct (dec6 _ a) as [v1|] eqn:E1; [|discriminate].
    destruct (dec6 _ b) as [v2|] eqn:E2; [|discriminate]. intros [= <-].
    apply dec6_sextet in E1 as [S1 L1], E2 as [S2 L2].
    exists [N.to_nat v1; N.to_nat v2]. repeat split; [repeat constructor; done|done|].
    unfold str1. rewrite bits_of_bytes_cons, q2_bits by done.
    rewrite !bits_of_sextets_cons, !N2Nat.id. done.
  - destruct (dec6 _ a) as [v1|] eqn:E1; [|discriminate].
    destruct (dec6 _ b) as [v2|] eqn:E2; [|discriminate].
    destruct (dec6 _ c) as [v3|] eqn:E3; [|discriminate]. intros [= <-].
    apply dec6_sextet in E1 as [S1 L1], E2 as [S2 L2], E3 as [S3 L3].
    exists [N.to_nat v1; N.to_nat v2; N.to_nat v3]. repeat split; [repeat constructor; done|done|].
    unfold str1. rewrite !bits_of_bytes_cons, q2_bits, q3_bits by done.
    rewrite !bits_of_sextets_cons, !N2Nat.id. done.
  - destruct (dec6 _ a) as [v1|] eqn:E1; [|discriminate].
    destruct (dec6 _ b) as [v2|] eqn:E2; [|discriminate].
    destruct (dec6 _ c) as [v3|] eqn:E3; [|discriminate].
    destruct (dec6 _ d) as [v4|] eqn:E4; [|discriminate].
    destruct (b64_decode_clean _ _ r) as [t|] eqn:Et; [|discriminate]. intros [= <-].
    apply dec6_sextet in E1 as [S1 L1], E2 as [S2 L2], E3 as [S3 L3], E4 as [S4 L4].
    destruct (IH _ eq_refl) as (vs & HF & Hm & Hb).
    exists (N.to_nat v1 :: N.to_nat v2 :: N.to_nat v3 :: N.to_nat v4 :: vs). split; [|split].
    + repeat constructor; done.
    + cbn [length]. replace (S (S (S (S (length vs))))) with (length vs + 1 * 4) by lia.
      rewrite Nat.mod_add by lia. done.
    + rewrite take_4quantum, <- Hb. rewrite !bits_of_bytes_cons, q2_bits, q3_bits, q4_bits by done.
      rewrite !N2Nat.id. cbn [bits take drop app]. done.
Qed.

Lemma Forall2_sextet_cons c l vs : Forall2 sextet (c :: l) vs ->
  exists v vs', vs = v :: vs' /\ Forall2 sextet l vs' /\ dec6 url_alphabet c = Some (N.of_nat v).
Proof.
  intros H. inversion H as [|? v ? vs' Hc Hl]; subst. exists v, vs'. repeat split; [done|].
  rewrite dec6_position. unfold sextet in Hc. by rewrite Hc.
Qed.

Lemma mod4 n : Nat.modulo (S (S (S (S n)))) 4 = Nat.modulo n 4.
Proof.
  replace (S (S (S (S n)))) with (n + 1 * 4) by lia. by rewrite Nat.mod_add by lia.
Qed.

Lemma decode_clean_total s vs : Forall2 sextet (chars s) vs -> Nat.modulo (length vs) 4 <> 1 ->
  exists k, b64_decode_clean url_alphabet false s = Some k.
Proof.
  revert vs. induction s as [|a|a b|a b c|a b c d r IH] using string_ind4; intros vs H Hm;
    cbn [b64_decode_clean chars list_ascii_of_string] in *;
    repeat match goal with
    | H : Forall2 sextet (_ :: _) _ |- _ =>
        apply Forall2_sextet_cons in H as (? & ? & -> & H & ->)
    | H : Forall2 sextet [] _ |- _ => inversion H; subst; clear H
    end; eauto.
  - done.
  - destruct (IH _ H) as [k Hk].
    { cbn [length] in Hm. intros H1. apply Hm.
      by rewrite mod4. }
    rewrite Hk. eauto.
Qed.

Lemma clean_denotes_unique s k k' : clean_denotes s k -> clean_denotes s k' -> k = k'.
Proof.
  intros (vs & H1 & _ & H2) (vs' & H1' & _ & H2').
  assert (vs = vs') as <-.
  { clear H2 H2'. revert vs' H1'. induction H1 as [|c v l vs Hc H1 IH]; intros vs' H1'.
    - by inversion H1'.
    - inversion H1' as [|? v' ? vs'' Hc' Hl]; subst. unfold sextet in *.
      assert (v = v') as <- by congruence. f_equal. auto. }
  apply bits_of_bytes_inj. congruence.
Qed.

Lemma not_newline_line_break c : not_newline c = negb (is_line_break c).
Proof.
  revert c. intros c.
  enough (Bool.eqb (not_newline c) (negb (is_line_break c)) = true) by (by apply eqb_prop).
  revert c. apply ascii_forall. vm_compute. reflexivity.
Qed.
Lemma chars_sfilter p s : chars (sfilter p s) = List.filter p (chars s).
Proof.
  unfold chars. induction s as [|a s IH]; [done|]. cbn. destruct (p a); cbn; by rewrite IH.
Qed.
Lemma filter_ext_bool {A} (p q : A -> bool) l : (forall x, p x = q x) -> List.filter p l = List.filter q l.
Proof. intros H. induction l as [|x l IH]; [done|]. cbn. rewrite H, IH. done. Qed.

Lemma rawurl_decode_spec s k : rawurl_decode s = Some k <-> b64url_denotes s k.
Proof.
  assert (Heq : chars (sfilter not_newline s) =
                List.filter (fun c => negb (is_line_break c)) (chars s)).
  { rewrite chars_sfilter. apply filter_ext_bool, not_newline_line_break. }
  unfold rawurl_decode, b64_decode. split.
  - intros H. apply decode_clean_sound in H as (vs & H1 & H2 & H3). exists vs.
    rewrite <- Heq. auto.
  - intros (vs & H1 & H2 & H3). rewrite <- Heq in H1.
    destruct (decode_clean_total _ _ H1 H2) as [k' Hk']. rewrite Hk'. f_equal.
    apply decode_clean_sound in Hk'. eapply clean_denotes_unique; [done|].
    exists vs. auto.
Qed.

(** ** Canonical encoding *)

Lemma enc6_sextet n : (n < 64)%N -> sextet (enc6 url_alphabet n) (N.to_nat n).
Proof.
  intros Hn. pose proof (dec_enc6 url_alphabet n url_ok Hn) as H. by apply dec6_sextet in H as [? _].
Qed.

Lemma byte_bits2 a y : (y < 256)%N -> bits 8 (N_of_ascii a) =
  bits 6 (ord a / 4)%N ++ take 2 (bits 6 (ord a mod 4 * 16 + y / 16)%N).
Proof.
  intros Hy. pose proof (ord_lt a). destruct (enc_bounds (ord a) y 0) as (? & ? & ? & _); try lia.
  rewrite <- q2_bits by done. by rewrite q2_ok.
Qed.
Lemma byte_bits2' a : bits 8 (N_of_ascii a) =
  bits 6 (ord a / 4)%N ++ take 2 (bits 6 (ord a mod 4 * 16)%N).
Proof.
  pose proof (ord_lt a). destruct (enc_bounds (ord a) 0 0) as (? & ? & ? & _); try lia.
  rewrite <- q2_bits by done. by rewrite q2_ok'.
Qed.
Lemma byte_bits3 x b z : (x < 256)%N -> (z < 256)%N -> bits 8 (N_of_ascii b) =
  drop 2 (bits 6 (x mod 4 * 16 + ord b / 16)%N) ++ take 4 (bits 6 (ord b mod 16 * 4 + z / 64)%N).
Proof.
  intros Hx Hz. pose proof (ord_lt b).
  destruct (enc_bounds x (ord b) z) as (? & ? & ? & ? & ? & _); try lia.
  rewrite <- q3_bits by done. by rewrite q3_ok.
Qed.
Lemma byte_bits3' x b : (x < 256)%N -> bits 8 (N_of_ascii b) =
  drop 2 (bits 6 (x mod 4 * 16 + ord b / 16)%N) ++ take 4 (bits 6 (ord b mod 16 * 4)%N).
Proof.
  intros Hx. pose proof (ord_lt b).
  destruct (enc_bounds x (ord b) 0) as (? & ? & ? & ? & ? & _); try lia.
  rewrite <- q3_bits by done. by rewrite q3_ok'.
Qed.
Lemma byte_bits4 y c : (y < 256)%N -> bits 8 (N_of_ascii c) =
  drop 4 (bits 6 (y mod 16 * 4 + ord c / 64)%N) ++ bits 6 (ord c mod 64)%N.
Proof.
  intros Hy. pose proof (ord_lt c).
  destruct (enc_bounds 0 y (ord c)) as (? & ? & ? & ? & ? & ?); try lia.
  rewrite <- q4_bits by done. by rewrite q4_ok.
Qed.

Lemma rawurl_encode_canonical k : b64url_canonical (rawurl_encode k) k.
Proof.
  unfold b64url_canonical, rawurl_encode.
  induction k as [|a|a b|a b c r IH] using string_ind3.
  - exists [], 0. split; [constructor|]. split; [lia|done].
  - pose proof (ord_lt a) as Ha. destruct (enc_bounds (ord a) 0 0) as (H1 & H2 & _); try lia.
    exists [N.to_nat (ord a / 4); N.to_nat (ord a mod 4 * 16)], 4.
    split; [|split; [lia|]].
    + cbn. repeat constructor; by apply enc6_sextet.
    + rewrite !bits_of_sextets_cons, bits_of_bytes_cons, !N2Nat.id.
      rewrite (byte_bits2' a).
      change (bits_of_sextets []) with (@nil bool). change (bits_of_bytes "") with (@nil bool).
      rewrite !app_nil_r, <- !app_assoc. f_equal.
      refine (single256 (fun x => bits 6 (x mod 4 * 16)%N)
        (fun x => take 2 (bits 6 (x mod 4 * 16)%N) ++ repeat false 4) _ (ord a) Ha).
      vm_compute. reflexivity.
  - pose proof (ord_lt a) as Ha. pose proof (ord_lt b) as Hb.
    destruct (enc_bounds (ord a) (ord b) 0) as (H1 & _ & H3 & H4 & _); try lia.
    exists [N.to_nat (ord a / 4); N.to_nat (ord a mod 4 * 16 + ord b / 16); N.to_nat (ord b mod 16 * 4)], 2.
    split; [|split; [lia|]].
    + cbn. repeat constructor; by apply enc6_sextet.
    + rewrite !bits_of_sextets_cons, !bits_of_bytes_cons, !N2Nat.id.
      rewrite (byte_bits2 a (ord b)), (byte_bits3' (ord a) b) by done.
      change (bits_of_sextets []) with (@nil bool). change (bits_of_bytes "") with (@nil bool).
      rewrite !app_nil_r, <- !app_assoc. f_equal.
      rewrite (app_assoc (take 2 _)), take_drop. f_equal.
      refine (single256 (fun x => bits 6 (x mod 16 * 4)%N)
        (fun x => take 4 (bits 6 (x mod 16 * 4)%N) ++ repeat false 2) _ (ord b) Hb).
      vm_compute. reflexivity.
  - pose proof (ord_lt a) as Ha. pose proof (ord_lt b) as Hb. pose proof (ord_lt c) as Hc.
    destruct (enc_bounds (ord a) (ord b) (ord c)) as (H1 & _ & H3 & _ & H5 & H6); try lia.
    destruct IH as (vs & z & IH1 & IH2 & IH3).
    exists (N.to_nat (ord a / 4) :: N.to_nat (ord a mod 4 * 16 + ord b / 16)
            :: N.to_nat (ord b mod 16 * 4 + ord c / 64) :: N.to_nat (ord c mod 64) :: vs), z.
    split; [|split; [lia|]].
    + cbn [b64_encode chars list_ascii_of_string]. repeat constructor; try (by apply enc6_sextet). done.
    + rewrite !bits_of_sextets_cons, !bits_of_bytes_cons, !N2Nat.id, IH3.
      rewrite (byte_bits2 a (ord b)), (byte_bits3 (ord a) b (ord c)), (byte_bits4 (ord b) c) by done.
      rewrite <- !app_assoc. cbn [bits take drop app]. done.
Qed.

(** ** Tokens *)

Lemma split_two s s0 s1 : split "." s = [s0; s1] <-> two_segments s s0 s1.
Proof.
  unfold two_segments. rewrite !chars_in, <- !contains_false. split.
  - intros H. split; [|split].
    + rewrite <- (join_split "." s), H. done.
    + apply (split_contains _ s). rewrite H. cbn. auto.
    + apply (split_contains _ s). rewrite H. cbn. auto.
  - intros (-> & H0 & H1).
    change ("." +:+ s1) with (String "." s1). rewrite split_app by done.
    by rewrite split_not_in by done.
Qed.

Lemma hs_valid_spec t secret : hs_valid t secret = true <-> hs_signature t = hmac_sha256 secret (hs_key t).
Proof. unfold hs_valid, hs_equal, token_from_key. cbn [hs_key hs_signature]. rewrite seqb_true. split; congruence. Qed.

Lemma parse_token_inl secret s t : parse_token secret s = inl t <->
  exists s0 s1, two_segments s s0 s1 /\ rawurl_decode s0 = Some (hs_key t) /\
    rawurl_decode s1 = Some (hs_signature t) /\ hs_signature t = hmac_sha256 secret (hs_key t).
Proof.
  unfold parse_token. split.
  - destruct (split "." s) as [|s0 [|s1 [|]]] eqn:Es; try discriminate.
    destruct (rawurl_decode s0) as [k|] eqn:E0; [|discriminate].
    destruct (rawurl_decode s1) as [g|] eqn:E1; [|discriminate].
    destruct (hs_valid _ secret) eqn:Ev; [|discriminate]. cbn. intros [= <-].
    exists s0, s1. rewrite hs_valid_spec in Ev. cbn in *. by apply split_two in Es.
  - intros (s0 & s1 & H & H0 & H1 & H2). apply split_two in H. rewrite H, H0, H1.
    destruct t as [k g]. cbn [hs_key hs_signature] in *.
    rewrite (proj2 (hs_valid_spec {| hs_key := k; hs_signature := g |} secret)); done.
Qed.

Lemma token_string_segments t : two_segments (token_string t) (key_string t) (signature_string t).
Proof.
  unfold two_segments, token_string. rewrite !chars_in, <- !contains_false.
  repeat split; apply rawurl_no_dot.
Qed.

Lemma parse_token_string secret k :
  parse_token secret (token_string (token_from_key secret k)) = inl (token_from_key secret k).
Proof.
  apply parse_token_inl. eexists _, _. split; [apply token_string_segments|].
  unfold key_string, signature_string. rewrite !rawurl_roundtrip. done.
Qed.

Lemma parse_token_from_key secret s t : parse_token secret s = inl t ->
  t = token_from_key secret (hs_key t).
Proof.
  rewrite parse_token_inl. intros (_ & _ & _ & _ & _ & H). destruct t as [k g]. cbn in *. subst. done.
Qed.

Lemma signature_string_length t : slen (hs_signature t) = 32 -> slen (signature_string t) = 43.
Proof. intros H. pose proof (rawurl_length (hs_signature t)) as HL. rewrite H in HL. unfold signature_string. cbn in HL. lia. Qed.

(** The masks of Sha256.v are residues. *)
Lemma w32_mod x : w32 x = (x mod 4294967296)%N.
Proof. unfold w32. change 4294967295%N with (N.ones 32). by rewrite N.land_ones. Qed.
