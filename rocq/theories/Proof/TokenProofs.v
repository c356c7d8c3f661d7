(** Proofs of C01 - C06. *)
From Verif.Model Require Import Hs256.
From Verif.Spec Require Import TokenSpec.
From Verif.Proof Require Import StrFacts Base64Facts HsFacts.

Lemma c01_proof : forall secret key,
  parse_token secret (token_string (token_from_key secret key))
  = inl {| hs_key := key; hs_signature := hmac_sha256 secret key |}.
Proof. intros. apply parse_token_string. Qed.

Lemma c02_accept : forall secret s t,
  parse_token secret s = inl t <->
  exists s0 s1, two_segments s s0 s1 /\
    b64url_denotes s0 (hs_key t) /\ b64url_denotes s1 (hs_signature t) /\
    hs_signature t = hmac_sha256 secret (hs_key t).
Proof.
  intros. rewrite parse_token_inl. setoid_rewrite rawurl_decode_spec. done.
Qed.

Lemma two_segments_fun s a b a' b' :
  two_segments s a b -> two_segments s a' b' -> a = a' /\ b = b'.
Proof. rewrite <- !split_two. intros H1 H2. rewrite H1 in H2. by injection H2. Qed.
Lemma denotes_fun s k k' : b64url_denotes s k -> b64url_denotes s k' -> k = k'.
Proof. rewrite <- !rawurl_decode_spec. congruence. Qed.

Lemma c02_reject : forall secret s e,
  parse_token secret s = inr e <->
  (~ (exists s0 s1, two_segments s s0 s1) /\
     e = "a token must have two segments separated by a dot") \/
  (exists s0 s1, two_segments s s0 s1 /\
     ((~ (exists k, b64url_denotes s0 k) /\ e = "token key is not base64 encoded") \/
      (exists k, b64url_denotes s0 k /\
         ((~ (exists g, b64url_denotes s1 g) /\ e = "token signature is not base64 encoded") \/
          (exists g, b64url_denotes s1 g /\ g <> hmac_sha256 secret k /\
             e = "invalid token supplied"))))).
Proof.
  intros secret s e. setoid_rewrite <- rawurl_decode_spec. setoid_rewrite <- split_two.
  unfold parse_token. split.
  - destruct (split "." s) as [|s0 [|s1 [|]]] eqn:Es.
    + by apply split_nonnil in Es.
    + intros [= <-]. left. split; [|done]. intros (? & ? & ?). discriminate.
    + intros H. right. exists s0, s1. split; [done|].
      destruct (rawurl_decode s0) as [k|] eqn:E0.
      * right. exists k. split; [done|].
        destruct (rawurl_decode s1) as [g|] eqn:E1.
        -- right. exists g. split; [done|].
           destruct (hs_valid _ secret) eqn:Ev; [discriminate|]. cbn in H. injection H as <-.
           split; [|done]. intros ->.
           assert (hs_valid {| hs_key := k; hs_signature := hmac_sha256 secret k |} secret = true)
             by (by apply hs_valid_spec). congruence.
        -- left. injection H as <-. split; [|done]. intros [? ?]. discriminate.
      * left. injection H as <-. split; [|done]. intros [? ?]. discriminate.
    + intros [= <-]. left. split; [|done]. intros (? & ? & ?). discriminate.
  - intros [[Hn ->]|(s0 & s1 & Hs & H)].
    + destruct (split "." s) as [|s0 [|s1 [|]]] eqn:Es; try done.
      exfalso. apply Hn. eauto.
    + rewrite Hs. destruct H as [[Hn ->]|(k & Hk & H)].
      * destruct (rawurl_decode s0) as [k|]; [|done]. exfalso. eauto.
      * rewrite Hk. destruct H as [[Hn ->]|(g & Hg & Hne & ->)].
        -- destruct (rawurl_decode s1) as [g|]; [|done]. exfalso. eauto.
        -- rewrite Hg. destruct (hs_valid _ secret) eqn:Ev; [|done].
           apply hs_valid_spec in Ev. cbn [hs_key hs_signature] in Ev. done.
Qed.

Lemma c03_proof : forall secret s1 s2 t1 t2,
  parse_token secret s1 = inl t1 -> parse_token secret s2 = inl t2 ->
  (t1 = t2 <-> hs_key t1 = hs_key t2) /\
  (hs_key t1 = hs_key t2 ->
     key_string t1 = key_string t2 /\ signature_string t1 = signature_string t2 /\
     token_string t1 = token_string t2) /\
  parse_token secret (token_string t1) = inl t1 /\
  (signature_string t1 = signature_string t2 <-> hs_signature t1 = hs_signature t2) /\
  (key_string t1 = key_string t2 <-> hs_key t1 = hs_key t2).
Proof.
  intros secret s1 s2 t1 t2 H1 H2.
  apply parse_token_from_key in H1, H2.
  assert (He : t1 = t2 <-> hs_key t1 = hs_key t2).
  { split; [congruence|]. intros H. rewrite H1, H2. congruence. }
  split; [done|]. split; [|split; [|split]].
  - intros H. apply He in H. by subst.
  - rewrite H1. apply parse_token_string.
  - split; [|unfold signature_string; congruence]. apply rawurl_encode_inj.
  - split; [|unfold key_string; congruence]. apply rawurl_encode_inj.
Qed.

(** ** Uniqueness of canonical spellings *)

Lemma bits6_inj v w : v < 64 -> w < 64 -> bits 6 (N.of_nat v) = bits 6 (N.of_nat w) -> v = w.
Proof.
  intros Hv Hw.
  assert (Hf : forall x, (x < 64)%N ->
    fold_left (fun acc (b : bool) => (2 * acc + (if b then 1 else 0))%N) (bits 6 x) 0%N = x).
  { intros x Hx. apply N.eqb_eq. revert x Hx.
    refine (N_forall (fun x => (fold_left (fun acc (b : bool) =>
      (2 * acc + (if b then 1 else 0))%N) (bits 6 x) 0 =? x)%N) 64 _). vm_compute. reflexivity. }
  intros H. pose proof (Hf (N.of_nat v)) as H1. rewrite H, Hf in H1 by lia. lia.
Qed.
Lemma sextet_lt c v : sextet c v -> v < 64.
Proof. intros H. apply position_lt in H. exact H. Qed.
Lemma position_nth c l v : position c l = Some v -> nth_error l v = Some c.
Proof.
  revert v. induction l as [|a l IH]; cbn; [done|]. intros v.
  destruct (Ascii.eqb_spec a c) as [->|]; [intros [= <-]; done|].
  destruct (position c l); [|done]. intros [= <-]. cbn. auto.
Qed.
Lemma sextet_inj c c' v : sextet c v -> sextet c' v -> c = c'.
Proof. unfold sextet. intros H H'. apply position_nth in H, H'. congruence. Qed.
Lemma sextets_inj l l' vs vs' : Forall2 sextet l vs -> Forall2 sextet l' vs' ->
  bits_of_sextets vs = bits_of_sextets vs' -> l = l'.
Proof.
  intros H. revert l' vs'. induction H as [|c v l vs Hc H IH]; intros l' vs' H'.
  - inversion H' as [|? v' ? vs'' Hc' Hl']; subst; [done|]. rewrite bits_of_sextets_cons.
    intros Hb. apply (f_equal length) in Hb. rewrite app_length, length_bits in Hb. discriminate.
  - inversion H' as [|c' v' l'' vs'' Hc' Hl']; subst; rewrite !bits_of_sextets_cons.
    + intros Hb. apply (f_equal length) in Hb. rewrite app_length, length_bits in Hb. discriminate.
    + intros Hb. apply app_inj_1 in Hb as [Hb1 Hb2]; [|by rewrite !length_bits].
      apply bits6_inj in Hb1; [|by eapply sextet_lt..]. subst. f_equal; [|eauto].
      by eapply sextet_inj.
Qed.
Lemma length_bits_of_sextets vs : length (bits_of_sextets vs) = 6 * length vs.
Proof. induction vs as [|v vs IH]; [done|]. rewrite bits_of_sextets_cons, app_length, length_bits, IH. cbn. lia. Qed.
Lemma length_bits_of_bytes k : length (bits_of_bytes k) = 8 * slen k.
Proof. induction k as [|v vs IH]; [done|]. rewrite bits_of_bytes_cons, app_length, length_bits, IH. cbn [String.length]. lia. Qed.
Lemma chars_inj s t : chars s = chars t -> s = t.
Proof.
  unfold chars. intros H. rewrite <- (string_of_list_ascii_of_string s), H.
  apply string_of_list_ascii_of_string.
Qed.

Lemma canonical_unique s k : b64url_canonical s k -> s = rawurl_encode k.
Proof.
  intros (vs & z & H1 & H2 & H3). destruct (rawurl_encode_canonical k) as (vs' & z' & H1' & H2' & H3').
  assert (z = z') as <-.
  { pose proof (f_equal length H3) as L. pose proof (f_equal length H3') as L'.
    rewrite app_length, length_bits_of_sextets, length_bits_of_bytes, repeat_length in L, L'. lia. }
  apply chars_inj. eapply sextets_inj; [done..|]. congruence.
Qed.

Lemma c04_partial : forall secret s t s0 s1,
  parse_token secret s = inl t -> two_segments s s0 s1 ->
  (b64url_canonical s0 (hs_key t) /\ b64url_canonical s1 (hs_signature t) <->
   s = token_string t).
Proof.
  intros secret s t s0 s1 _ Hs. split.
  - intros [H0 H1]. apply canonical_unique in H0, H1. destruct Hs as (-> & _ & _). by subst.
  - intros ->. destruct (two_segments_fun _ _ _ _ _ Hs (token_string_segments t)) as [-> ->].
    split; apply rawurl_encode_canonical.
Qed.

Lemma c04_canonical_unique : forall secret s s' t s0 s1 s0' s1',
  parse_token secret s = inl t -> parse_token secret s' = inl t ->
  two_segments s s0 s1 -> two_segments s' s0' s1' ->
  b64url_canonical s0 (hs_key t) -> b64url_canonical s1 (hs_signature t) ->
  b64url_canonical s0' (hs_key t) -> b64url_canonical s1' (hs_signature t) -> s = s'.
Proof.
  intros ? ? ? ? ? ? ? ? _ _ (-> & _ & _) (-> & _ & _) H0 H1 H0' H1'.
  apply canonical_unique in H0, H1, H0', H1'. by subst.
Qed.

(** ** Generation *)

Lemma c05_proof : forall secret n src,
  (0 <= n)%Z ->
  (forall key rest, src = key +:+ rest -> Z.of_nat (slen key) = n ->
     let t := {| hs_key := key; hs_signature := hmac_sha256 secret key |} in
     generate secret n src = GenOk t rest /\ must_generate secret n src = Some (t, rest)) /\
  ((Z.of_nat (slen src) < n)%Z ->
     generate secret n src = GenErr /\ must_generate secret n src = None).
Proof.
  intros secret n src Hn. unfold must_generate, generate.
  replace (n <? 0)%Z with false by lia. split.
  - intros key rest -> Hk. cbv zeta.
    destruct (read_full_spec (Z.to_nat n) (key +:+ rest)) as [H _].
    destruct H as (k & r & -> & Heq & Hlen); [rewrite slen_app; lia|].
    assert (key = k /\ rest = r) as [-> ->].
    { assert (slen key = slen k) as HL by lia. clear -Heq HL. revert k Heq HL.
      induction key as [|a key IH]; intros [|b k]; cbn; try discriminate; rewrite ?app_nil_s.
      - done.
      - rewrite !app_cons_s. intros [= -> H] [= HL]. destruct (IH _ H HL) as [-> ->]. done. }
    done.
  - intros H. destruct (read_full_spec (Z.to_nat n) src) as [_ H2].
    rewrite H2 by lia. done.
Qed.

Lemma c05_negative : forall secret n src, (n < 0)%Z ->
  generate secret n src = GenPanic /\ must_generate secret n src = None.
Proof.
  intros secret n src Hn. unfold must_generate, generate. by replace (n <? 0)%Z with true by lia.
Qed.

Lemma c06_proof : forall secret key,
  let t := token_from_key secret key in
  hs_key t = key /\ hs_signature t = hmac_sha256 secret key /\
  slen (hs_signature t) = 32 /\
  slen (signature_string t) = 43 /\
  (forall c, In c (chars (signature_string t)) -> In c (chars b64url_alphabet)) /\
  ~ In "."%char (chars (signature_string t)) /\
  signature_string t <> "".
Proof.
  intros secret key t. split; [done|]. split; [done|].
  assert (H32 : slen (hs_signature t) = 32) by apply hmac_length.
  split; [done|]. pose proof (signature_string_length t H32) as H43. split; [done|]. split; [|split].
  - intros c Hc. destruct (rawurl_encode_canonical (hs_signature t)) as (vs & z & HF & _).
    apply elem_of_list_In in Hc. apply Forall2_Forall_l with (Q := fun c => In c (chars b64url_alphabet)) in HF.
    + rewrite Forall_forall in HF. by apply HF.
    + apply Forall_forall. intros v _ c' Hc'. apply position_nth in Hc'. eapply nth_error_In, Hc'.
  - rewrite chars_in, <- contains_false. apply rawurl_no_dot.
  - intros H. rewrite H in H43. discriminate.
Qed.
