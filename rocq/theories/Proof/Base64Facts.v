(** Facts about Model/Base64.v. *)
From Verif.Model Require Import Base64.
From Verif.Proof Require Import StrFacts.
Local Open Scope N_scope.

Definition al_ok (al : alphabet) : bool :=
  forallb (fun n => match dec6 al (enc6 al n) with Some m => m =? n | None => false end) (below 64)
  && forallb (fun n => not_newline (enc6 al n)) (below 64)
  && match dec6 al eq_char with None => true | Some _ => false end.

Lemma url_ok : al_ok url_alphabet = true. Proof. vm_compute. reflexivity. Qed.
Lemma std_ok : al_ok std_alphabet = true. Proof. vm_compute. reflexivity. Qed.

Lemma dec_enc6 al n : al_ok al = true -> n < 64 -> dec6 al (enc6 al n) = Some n.
Proof.
  unfold al_ok. rewrite !andb_true_iff. intros [[H _] _] Hn.
  pose proof (N_forall _ _ H n Hn) as H1. cbv beta in H1.
  destruct (dec6 al (enc6 al n)) as [m|]; [|discriminate].
  apply N.eqb_eq in H1. congruence.
Qed.
Lemma enc6_newline al n : al_ok al = true -> n < 64 -> not_newline (enc6 al n) = true.
Proof.
  unfold al_ok. rewrite !andb_true_iff. intros [[_ H] _] Hn. by apply (N_forall _ _ H n Hn).
Qed.
Lemma dec6_eq al : al_ok al = true -> dec6 al eq_char = None.
Proof.
  unfold al_ok. rewrite !andb_true_iff. intros [_ H]. by destruct (dec6 al eq_char).
Qed.

(** Induction over three bytes at a time. *)
Lemma string_ind3 (P : string -> Prop) :
  P "" -> (forall a, P (String a "")) -> (forall a b, P (String a (String b ""))) ->
  (forall a b c r, P r -> P (String a (String b (String c r)))) -> forall s, P s.
Proof.
  intros H0 H1 H2 H3. fix IH 1. intros [|a [|b [|c r]]]; [exact H0|exact (H1 a)|exact (H2 a b)|].
  exact (H3 a b c r (IH r)).
Qed.

Ltac byte_bounds := repeat match goal with
  | a : ascii |- _ => lazymatch goal with
      | H : ord a < 256 |- _ => fail
      | _ => pose proof (ord_lt a)
      end end.
Ltac zify_div := Z.to_euclidean_division_equations.

Lemma div_mod_lt x y k : k <> 0 -> x < y * k -> x / k < y.
Proof. intros. apply N.div_lt_upper_bound; lia. Qed.

Lemma quantum1 x : x < 256 -> (x / 4) * 4 + (x mod 4 * 16) / 16 = x.
Proof. intros. rewrite N.div_mul by lia. rewrite N.mul_comm, <- N.div_mod; lia. Qed.

Lemma enc_bounds x y z : x < 256 -> y < 256 -> z < 256 ->
  x / 4 < 64 /\ x mod 4 * 16 < 64 /\ x mod 4 * 16 + y / 16 < 64 /\ y mod 16 * 4 < 64 /\
  y mod 16 * 4 + z / 64 < 64 /\ z mod 64 < 64.
Proof.
  intros. pose proof (N.mod_lt x 4). pose proof (N.mod_lt y 16). pose proof (N.mod_lt z 64).
  pose proof (div_mod_lt x 64 4). pose proof (div_mod_lt y 16 16).
  pose proof (div_mod_lt z 4 64). lia.
Qed.

Lemma q2_ok a y : y < 256 -> q2 (ord a / 4) (ord a mod 4 * 16 + y / 16) = a.
Proof.
  intros Hy. unfold q2. rewrite <- (chr_ord a) at 3. f_equal.
  rewrite N.add_comm with (n := ord a mod 4 * 16), N.div_add by lia.
  rewrite (N.div_small (y / 16) 16) by (apply div_mod_lt; lia).
  pose proof (N.div_mod (ord a) 4). lia.
Qed.
Lemma q2_ok' a : q2 (ord a / 4) (ord a mod 4 * 16) = a.
Proof. rewrite <- (N.add_0_r (_ * 16)). change 0 with (0 / 16). by apply q2_ok. Qed.
Lemma q3_ok x b z : x < 256 -> z < 256 ->
  q3 (x mod 4 * 16 + ord b / 16) (ord b mod 16 * 4 + z / 64) = b.
Proof.
  intros Hx Hz. unfold q3. rewrite <- (chr_ord b) at 3. f_equal.
  pose proof (ord_lt b). assert (ord b / 16 < 16) by (apply div_mod_lt; lia).
  rewrite N.add_comm with (n := x mod 4 * 16), N.mod_add by lia.
  rewrite (N.mod_small (ord b / 16)) by lia.
  rewrite N.add_comm with (n := ord b mod 16 * 4), N.div_add by lia.
  rewrite (N.div_small (z / 64) 4) by (apply div_mod_lt; lia).
  pose proof (N.div_mod (ord b) 16). lia.
Qed.
Lemma q3_ok' x b : x < 256 -> q3 (x mod 4 * 16 + ord b / 16) (ord b mod 16 * 4) = b.
Proof.
  intros. rewrite <- (N.add_0_r (ord b mod 16 * 4)). change 0 with (0 / 64).
  apply q3_ok; lia.
Qed.
Lemma q4_ok y c : y < 256 -> q4 (y mod 16 * 4 + ord c / 64) (ord c mod 64) = c.
Proof.
  intros Hy. unfold q4. rewrite <- (chr_ord c) at 3. f_equal.
  pose proof (ord_lt c). assert (ord c / 64 < 4) by (apply div_mod_lt; lia).
  rewrite N.add_comm with (n := y mod 16 * 4), N.mod_add by lia.
  rewrite (N.mod_small (ord c / 64)) by lia.
  pose proof (N.div_mod (ord c) 64). lia.
Qed.

Lemma decode_encode_clean al pad s : al_ok al = true ->
  b64_decode_clean al pad (b64_encode al pad s) = Some s.
Proof.
  intros Hal. induction s as [|a|a b|a b c r IH] using string_ind3.
  - done.
  - pose proof (ord_lt a) as Ha. destruct (enc_bounds (ord a) 0 0) as (H1 & H2 & _); try lia.
    cbn [b64_encode b64_decode_clean]. rewrite !(dec_enc6 al) by assumption.
    destruct pad.
    + cbn [b64_decode_clean]. pose proof (dec6_eq al Hal) as He. unfold eq_char in He. rewrite He.
      change (_ && _ && _) with true. cbv match. by rewrite q2_ok'.
    + by rewrite q2_ok'.
  - pose proof (ord_lt a) as Ha. pose proof (ord_lt b) as Hb.
    destruct (enc_bounds (ord a) (ord b) 0) as (H1 & _ & H3 & H4 & _); try lia.
    cbn [b64_encode b64_decode_clean]. rewrite !(dec_enc6 al) by assumption.
    destruct pad.
    + cbn [b64_decode_clean]. pose proof (dec6_eq al Hal) as He. unfold eq_char in He. rewrite He.
      change (_ && _ && _) with true. cbv match. by rewrite q2_ok, q3_ok'.
    + by rewrite q2_ok, q3_ok'.
  - pose proof (ord_lt a) as Ha. pose proof (ord_lt b) as Hb. pose proof (ord_lt c) as Hc.
    destruct (enc_bounds (ord a) (ord b) (ord c)) as (H1 & _ & H3 & _ & H5 & H6); try lia.
    cbn [b64_encode b64_decode_clean]. rewrite !(dec_enc6 al) by assumption.
    rewrite IH. by rewrite q2_ok, q3_ok, q4_ok.
Qed.

(** Every character of an encoding satisfies [p], if the alphabet does. *)
Lemma encode_all_bytes p al pad s :
  forallb (fun n => p (enc6 al n)) (below 64) = true -> (pad = true -> p eq_char = true) ->
  all_bytes p (b64_encode al pad s) = true.
Proof.
  intros H Hp. assert (H' : forall n, n < 64 -> p (enc6 al n) = true) by (intros n Hn; exact (N_forall _ 64 H n Hn)).
  assert (Hpad : forall t, (t = "=" \/ t = "==") ->
                 all_bytes p (if pad then t else "") = true).
  { intros t Ht. destruct pad; [|done]. specialize (Hp eq_refl). unfold eq_char in Hp.
    destruct Ht as [-> | ->]; cbn; by rewrite !Hp. }
  induction s as [|a|a b|a b c r IH] using string_ind3.
  - done.
  - pose proof (ord_lt a) as Ha. destruct (enc_bounds (ord a) 0 0) as (H1 & H2 & _); try lia.
    cbn [b64_encode all_bytes]. rewrite !H', Hpad by auto. done.
  - pose proof (ord_lt a) as Ha. pose proof (ord_lt b) as Hb.
    destruct (enc_bounds (ord a) (ord b) 0) as (H1 & _ & H3 & H4 & _); try lia.
    cbn [b64_encode all_bytes]. rewrite !H', Hpad by auto. done.
  - pose proof (ord_lt a) as Ha. pose proof (ord_lt b) as Hb. pose proof (ord_lt c) as Hc.
    destruct (enc_bounds (ord a) (ord b) (ord c)) as (H1 & _ & H3 & _ & H5 & H6); try lia.
    cbn [b64_encode all_bytes]. rewrite !H', IH by auto. done.
Qed.

Lemma decode_encode al pad s : al_ok al = true ->
  b64_decode al pad (b64_encode al pad s) = Some s.
Proof.
  intros Hal. unfold b64_decode. rewrite sfilter_all; [by apply decode_encode_clean|].
  apply encode_all_bytes; [|done].
  unfold al_ok in Hal. rewrite !andb_true_iff in Hal. tauto.
Qed.

Lemma rawurl_roundtrip s : rawurl_decode (rawurl_encode s) = Some s.
Proof. apply decode_encode, url_ok. Qed.
Lemma std_roundtrip s : std_decode (std_encode s) = Some s.
Proof. apply decode_encode, std_ok. Qed.
Lemma rawurl_encode_inj s t : rawurl_encode s = rawurl_encode t -> s = t.
Proof.
  intros H. apply (f_equal rawurl_decode) in H. rewrite !rawurl_roundtrip in H. congruence.
Qed.

(** The alphabet of RFC 4648 section 5. *)
Lemma rawurl_no_dot s : contains "." (rawurl_encode s) = false.
Proof.
  eapply (all_bytes_not_contains (fun a => negb (Ascii.eqb a "."%char))); [|done].
  apply encode_all_bytes; [|done]. vm_compute. reflexivity.
Qed.

Lemma rawurl_length s : (3 * slen (rawurl_encode s) = 4 * slen s + match Nat.modulo (slen s) 3 with
  0 => 0 | 1 => 2 | _ => 1 end)%nat.
Proof.
  unfold rawurl_encode. induction s as [|a|a b|a b c r IH] using string_ind3; try done.
  cbn [b64_encode String.length]. 
  replace (S (S (S (slen r)))) with (slen r + 1 * 3)%nat by lia.
  rewrite Nat.mod_add by lia. lia.
Qed.
