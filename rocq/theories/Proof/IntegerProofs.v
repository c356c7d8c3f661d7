(** Integers up to 2^53 are written by encoding/json as they were read. *)
From Coq Require Import QArith Qabs ZifyBool Psatz.
From Verif.Model Require Import Float Json.
From Verif.Spec Require Import NumberSpec.
From Verif.Proof Require Import StrFacts DecFacts JsonFacts FloatFacts FloatText NumberFacts NumberProofs.
Local Open Scope Z_scope.
#[local] Opaque to_float big.

(** Such an integer is a float64. *)
Lemma small_exact z : 0 < z <= 2 ^ 53 -> exists m i, fin m i /\ z * big = m * 2 ^ i /\ 1022 <= i <= 1075 /\
  ((i <= 1074 /\ m = z * 2 ^ (1074 - i)) \/ (i = 1075 /\ z = 2 ^ 53 /\ m = 2 ^ 52)).
Proof.
  intros Hz. destruct (Z.eq_dec z (2 ^ 53)) as [->|Hne].
  - exists (2 ^ 52), 1075. split; [unfold fin; lia|]. split; [|split; [lia|right; done]].
    rewrite <- big_eq, <- !Z.pow_add_r by lia. f_equal.
  - destruct (Z.log2_spec z ltac:(lia)) as [L1 L2]. set (k := Z.log2 z) in *.
    assert (Hk : 0 <= k <= 52).
    { split; [apply Z.log2_nonneg|]. assert (k < 53); [|lia]. apply Z.log2_lt_pow2; lia. }
    exists (z * 2 ^ (52 - k)), (1022 + k).
    assert (Hp : 0 < 2 ^ (52 - k)) by (apply Z.pow_pos_nonneg; lia).
    assert (H52 : 2 ^ 52 = 2 ^ k * 2 ^ (52 - k)) by (rewrite <- Z.pow_add_r by lia; f_equal; lia).
    assert (H53 : 2 ^ 53 = 2 ^ Z.succ k * 2 ^ (52 - k)) by (rewrite <- Z.pow_add_r by lia; f_equal; lia).
    split; [|split; [|split; [lia|left; split; [lia|f_equal; f_equal; lia]]]].
    + split; [|split; [lia|]].
      * rewrite H53. nia.
      * left. rewrite H52. nia.
    + rewrite <- Z.mul_assoc, <- Z.pow_add_r by lia. rewrite <- big_eq. do 2 f_equal. lia.
Qed.

(** Which even integers are rounded to it. *)
Lemma small_only z c : 0 < z <= 2 ^ 53 -> 0 <= c -> (Z.even c = true \/ c < 2 ^ 53) -> plain c 0 = plain z 0 -> c = z.
Proof.
  intros Hz Hc Hev. unfold plain. change (0 <=? 0) with true. cbv iota. change (10 ^ 0) with 1. rewrite !Z.mul_1_r.
  pose proof big_pos as Hb. destruct (small_exact z Hz) as (m & i & Hf & He & _).
  assert (Hpz : to_float (z * big) 1 = Some (m, i)).
  { rewrite He. rewrite <- (to_float_exact m i 1 Hf) by lia. f_equal. lia. }
  rewrite Hpz. intros Hp. destruct (to_float_cases (c * big) 1 ltac:(lia) ltac:(nia)) as (m1 & i1 & H & Hi & Hm & _ & Hnear).
  rewrite Hp in H. destruct (2045 <? i1); [done|]. injection H as <- <-. rewrite <- He in Hnear.
  assert (Hat : forall w j k, 0 <= j < 2 ^ 53 -> 0 <= k -> w * big = j * 2 ^ k -> Z.abs (c - z) <= Z.abs (c - w)).
  { intros w j k Hj Hk Hw. destruct (Hnear j k Hj Hk) as [H1 _]. rewrite <- Hw in H1. revert H1 Hb. generalize big. intros B. nia. }
  destruct (Z.lt_trichotomy c (2 ^ 53)) as [Hlt|[Heq|Hgt]].
  - specialize (Hat c c 1074 ltac:(lia) ltac:(lia) ltac:(by rewrite big_eq)). lia.
  - assert (Hx : 2 ^ 53 * big = 2 ^ 52 * 2 ^ 1075) by (rewrite <- big_eq, <- !Z.pow_add_r by lia; f_equal).
    specialize (Hat (2 ^ 53) (2 ^ 52) 1075 ltac:(lia) ltac:(lia) Hx). lia.
  - assert (Hc2 : 2 ^ 53 + 2 <= c).
    { destruct Hev as [Hev|]; [|lia]. apply Z.even_spec in Hev as [h ->]. assert (2 ^ 53 = 2 * 2 ^ 52) by reflexivity. lia. }
    assert (Hx : (2 ^ 53 + 2) * big = (2 ^ 52 + 1) * 2 ^ 1075).
    { assert (H1 : 2 ^ 1075 = 2 * big) by (rewrite <- big_eq; change 1075 with (Z.succ 1074); apply Z.pow_succ_r; lia).
      rewrite H1. generalize big. intros B. lia. }
    specialize (Hat (2 ^ 53 + 2) (2 ^ 52 + 1) 1075 ltac:(lia) ltac:(lia) Hx). lia.
Qed.

(** The shortest decimal is the integer itself. *)
Lemma shorten_small z m i d x t fuel n : 0 < z <= 2 ^ 53 -> plain z 0 = Some (m, i) -> 0 <= t ->
  d = z * 10 ^ t -> x = - t -> 1 <= n <= ndigits z -> (Z.to_nat (ndigits z - n) < fuel)%nat ->
  exists q y, shorten fuel m i d x (ndigits d) n = (q, y) /\ 0 <= y /\ q * 10 ^ y = z \/
    (shorten fuel m i d x (ndigits d) n = (q, y) /\ y = - t /\ q = d /\ t = 0).
Proof.
  intros Hz Hp Ht -> -> . revert n. induction fuel as [|f IH]; intros n Hn Hfuel; [lia|].
  assert (Hnd : ndigits (z * 10 ^ t) = ndigits z + t) by (apply ndigits_mul10; lia). rewrite Hnd in *.
  cbn [shorten]. destruct (Z.leb_spec (ndigits z + t) n) as [Hle|Hlt].
  - exists (z * 10 ^ t), (- t). right. split; [done|]. split; [done|]. split; [done|]. lia.
  - cbv zeta. set (k := ndigits z - n). replace (ndigits z + t - n) with (k + t) by (unfold k; lia).
    assert (Hk : 0 <= k) by (unfold k; lia).
    assert (P1 : 0 < 10 ^ k) by (apply Z.pow_pos_nonneg; lia). assert (P2 : 0 < 10 ^ t) by (apply Z.pow_pos_nonneg; lia).
    rewrite Z.pow_add_r by lia. rewrite Z.div_mul_cancel_r by lia. replace (- t + (k + t)) with k by lia.
    assert (Hq : 0 <= z / 10 ^ k) by (apply Z.div_pos; lia). set (q := z / 10 ^ k) in *.
    assert (Hden : forall c, 0 <= c -> (0 < k \/ c * 10 ^ k < 2 ^ 53) -> denotes m i c k = true -> c * 10 ^ k = z).
    { intros c Hc Hck H. apply denotes_plain in H; [|done]. rewrite <- Hp in H.
      replace k with (0 + k) in H by lia. rewrite <- plain_shift in H by lia.
      apply (small_only z); [done|nia| |done]. destruct Hck as [Hck|Hck]; [left|by right].
      replace k with (Z.succ (k - 1)) by lia. rewrite Z.pow_succ_r by lia. rewrite !Z.even_mul. change (Z.even 10) with true.
      by rewrite orb_true_r. }
    destruct (Z.eq_dec k 0) as [Hk0|Hk0].
    + assert (Hqz : q = z) by (unfold q; rewrite Hk0; change (10 ^ 0) with 1; apply Z.div_1_r).
      assert (Hd : denotes m i q k = true).
      { unfold denotes. rewrite plain_spec, Hqz, Hk0, Hp by lia. by rewrite !Z.eqb_refl. }
      rewrite Hd, Hqz, Hk0. exists z, 0. left. change (10 ^ 0) with 1. split; [|split; [lia|lia]].
      destruct (denotes m i (z + 1) 0); [|done]. f_equal. rewrite Z.mul_1_l, (Z.mul_comm z). by apply half_even_mul.
    + destruct (denotes m i q k) eqn:E1, (denotes m i (q + 1) k) eqn:E2.
      * apply Hden in E1; [|lia..]. apply Hden in E2; [|lia..]. exfalso. nia.
      * apply Hden in E1; [|lia..]. exists q, k. left. split; [done|]. split; [lia|done].
      * apply Hden in E2; [|lia..]. exists (q + 1), k. left. split; [done|]. split; [lia|done].
      * destruct (IH (n + 1)) as (q' & y' & H); [unfold k in *; lia|unfold k in *; lia|].
        exists q', y'. exact H.
Qed.
Lemma trim_small fuel q x : 0 <= x -> let '(q', x') := trim_zeros fuel q x in 0 <= x' /\ q' * 10 ^ x' = q * 10 ^ x.
Proof.
  revert q x. induction fuel as [|f IH]; intros q x Hx; cbn [trim_zeros]; [done|].
  destruct (Z.eqb_spec (q mod 10) 0) as [E|E]; [|done]. specialize (IH (q / 10) (x + 1) ltac:(lia)).
  destruct (trim_zeros f (q / 10) (x + 1)) as [q' x']. destruct IH as [H1 H2]. split; [done|]. rewrite H2.
  rewrite Z.pow_add_r by lia. change (10 ^ 1) with 10. pose proof (Z.div_mod q 10). nia.
Qed.
Lemma shortest_small z m i : 0 < z <= 2 ^ 53 -> plain z 0 = Some (m, i) -> 
  exists q x, shortest m i = (q, x) /\ 0 <= x /\ q * 10 ^ x = z /\ 1022 <= i <= 1075.
Proof.
  intros Hz Hp. destruct (small_exact z Hz) as (m0 & i0 & Hf & He & Hi & Hc).
  assert (Hpz : plain z 0 = Some (m0, i0)).
  { unfold plain. change (0 <=? 0) with true. cbv iota. change (10 ^ 0) with 1. rewrite Z.mul_1_r, He.
    rewrite <- (to_float_exact m0 i0 1 Hf) by lia. f_equal. lia. }
  rewrite Hp in Hpz. injection Hpz as <- <-.
  destruct (ndigits_spec z ltac:(lia)) as (Hn & _).
  assert (Hex : exists t, 0 <= t /\ exact_decimal m i = (z * 10 ^ t, - t)).
  { unfold exact_decimal. destruct Hc as [[Hle ->]|(-> & -> & ->)].
    - destruct (Z.leb_spec 1074 i) as [H|H].
      + assert (i = 1074) as -> by lia. exists 0. split; [lia|]. change (1074 - 1074) with 0. change (2 ^ 0) with 1. change (10 ^ 0) with 1. f_equal; lia.
      + exists (1074 - i). split; [lia|]. change 10 with (2 * 5). rewrite Z.pow_mul_l. f_equal; lia.
    - exists 0. split; [lia|]. reflexivity. }
  destruct Hex as (t & Ht & Hex). unfold shortest. rewrite Hex.
  destruct (shorten_small z m i (z * 10 ^ t) (- t) t (Z.to_nat (ndigits (z * 10 ^ t))) 1 Hz Hp Ht eq_refl eq_refl) as (q & y & H).
  { lia. } { rewrite ndigits_mul10 by lia. lia. }
  assert (Hq : shorten (Z.to_nat (ndigits (z * 10 ^ t))) m i (z * 10 ^ t) (- t) (ndigits (z * 10 ^ t)) 1 = (q, y) /\ 0 <= y /\ q * 10 ^ y = z).
  { destruct H as [H|(H & -> & -> & Ht0)]; [done|]. split; [done|]. split; [lia|]. rewrite Ht0. change (10 ^ 0) with 1. change (10 ^ - 0) with 1. lia. }
  destruct Hq as (-> & Hy & Hqy). pose proof (trim_small (Z.to_nat (ndigits q)) q y Hy) as H'.
  destruct (trim_zeros _ q y) as [q' y']. destruct H' as [H1 H2]. exists q', y'. split; [done|]. split; [done|]. split; [lia|lia].
Qed.

(** A number without leading zeros has one decimal form. *)
Lemma same_length_digits s t : digits s = true -> digits t = true -> slen s = slen t -> digits_value s = digits_value t -> s = t.
Proof.
  revert t. induction s as [|a s IH]; intros [|b t] Hs Ht Hl Hv; try done.
  change (String a s) with (str1 a +:+ s) in *. change (String b t) with (str1 b +:+ t) in *.
  apply digits_app in Hs as [Ha Hs]. apply digits_app in Ht as [Hb Ht].
  rewrite !digits_value_app in Hv by done. assert (Hl' : slen s = slen t) by (by injection Hl).
  pose proof (digits_value_bound s Hs) as B1. pose proof (digits_value_bound t Ht) as B2. rewrite Hl' in *.
  set (P := 10 ^ Z.of_nat (slen t)) in *. assert (HP : 0 < P) by (apply Z.pow_pos_nonneg; lia).
  assert (H1 : digits_value (str1 a) = digits_value (str1 b)).
  { revert Hv B1 B2. generalize (digits_value (str1 a)) (digits_value (str1 b)) (digits_value s) (digits_value t). clear -HP.
    intros x y v w Hv B1 B2. destruct (Z.lt_trichotomy x y) as [H|[H|H]]; [nia|done|nia]. }
  assert (H2 : digits_value s = digits_value t) by nia.
  assert (Hab : a = b).
  { unfold digits in Ha, Hb. cbn in Ha, Hb. rewrite andb_true_r in Ha, Hb. unfold is_digit, GoStr.ord in *. unfold digits_value in H1. cbn [list_ascii_of_string fold_left str1] in H1.
    rewrite <- (ascii_N_embedding a), <- (ascii_N_embedding b). f_equal. lia. }
  rewrite Hab. f_equal. by apply IH.
Qed.
Lemma dec_of_N_shift q x : 0 < q -> 0 <= x -> dec_of_N (Z.to_N (q * 10 ^ x)) = dec_of_N (Z.to_N q) +:+ zeros (Z.to_nat x).
Proof.
  intros Hq Hx. destruct (zeros_spec (Z.to_nat x)) as (Z1 & Z2 & Z3).
  destruct (dec_of_N_spec (Z.to_N q)) as (Hd & _). destruct (dec_of_N_spec (Z.to_N (q * 10 ^ x))) as (Hd' & _).
  assert (Hp : 0 < 10 ^ x) by (apply Z.pow_pos_nonneg; lia).
  apply same_length_digits; [done|by apply digits_app| |].
  - rewrite slen_app, Z2. pose proof (ndigits_mul10 q x Hq Hx) as H. unfold ndigits in H. lia.
  - rewrite digits_value_app, Z2, Z3, !digits_value_nat by done. rewrite !Z2N.id, Z2Nat.id by nia. lia.
Qed.

Lemma dec_number n : number_int (dec_of_N n).
Proof.
  destruct (dec_of_N_spec n) as (Hd & Hne & _ & H0). destruct (N.eq_dec n 0) as [->|Hn]; [by left|]. right.
  split; [by apply decimal_digits_spec|]. destruct (H0 Hn) as (a & r & -> & Ha). congruence.
Qed.
Lemma parse_int_float sign n : In sign [""; "-"] -> parse_float (sign +:+ dec_of_N n) =
  match plain (Z.of_N n) 0 with Some (m, i) => Some {| f_neg := bool_decide (sign = "-"); f_mant := m; f_index := i |} | None => None end.
Proof.
  intros Hs. unfold parse_float. pose proof (decimal_read sign (dec_of_N n) "" "" "" 0 Hs (dec_number n) (or_introl (conj eq_refl eq_refl)) (or_introl (conj eq_refl eq_refl))) as H.
  rewrite !app_nil_r_s in H. rewrite H. change (exponent "" - Z.of_nat (slen "")) with 0.
  rewrite digits_value_nat, plain_spec by lia. done.
Qed.
Lemma format_small sign n : In sign [""; "-"] -> Z.of_N n <= 2 ^ 53 ->
  option_map format_float (parse_float (sign +:+ dec_of_N n)) = Some (sign +:+ dec_of_N n).
Proof.
  intros Hs Hn. rewrite parse_int_float by done.
  assert (Hsg : (if bool_decide (sign = "-") then "-" else "") = sign) by (by destruct Hs as [<-|[<-|[]]]).
  destruct (N.eq_dec n 0) as [->|Hn0].
  - change (Z.of_N 0) with 0. rewrite plain_zero. cbn [option_map]. unfold format_float. cbn [f_neg f_mant f_index].
    rewrite Hsg. reflexivity.
  - assert (Hz : 0 < Z.of_N n <= 2 ^ 53) by lia.
    destruct (small_exact (Z.of_N n) Hz) as (m & i & Hf & He & _).
    assert (Hp : plain (Z.of_N n) 0 = Some (m, i)).
    { unfold plain. change (0 <=? 0) with true. cbv iota. change (10 ^ 0) with 1. rewrite Z.mul_1_r, He.
      rewrite <- (to_float_exact m i 1 Hf) by lia. f_equal. lia. }
    rewrite Hp. cbn [option_map]. unfold format_float. cbn [f_neg f_mant f_index]. rewrite Hsg.
    destruct (shortest_small _ m i Hz Hp) as (q & x & Hsh & Hx & Hqx & Hi). rewrite Hsh.
    replace (m =? 0) with false. 2:{ symmetry. apply Z.eqb_neq. intros ->. pose proof big_pos. nia. }
    assert (float_ltb m i 4722366482869645 1002 = false) as -> by (unfold float_ltb; lia).
    assert (float_ltb m i 7629394531250000 1091 = true) as -> by (unfold float_ltb; lia). cbn [orb negb].
    do 2 f_equal. unfold fmt_f. replace (0 <=? x) with true by lia.
    assert (Hp10 : 0 < 10 ^ x) by (apply Z.pow_pos_nonneg; lia). assert (0 < q) by nia.
    rewrite <- dec_of_N_shift by lia. rewrite Hqx. by rewrite N2Z.id.
Qed.
Lemma integer_same z : -2 ^ 53 <= z <= 2 ^ 53 -> option_map format_float (parse_float (itoa z)) = Some (itoa z).
Proof.
  intros Hz. destruct (itoa_cases z) as [(n & -> & ->)|(n & -> & -> & _)].
  - apply (format_small ""); [by left|lia].
  - apply (format_small "-"); [right; by left|lia].
Qed.

(** The conversion of an integer is what its literal is read as. *)
Lemma int_float z : int64 z -> exists f, parse_float (itoa z) = Some f /\ float_of_int z = Some f /\ float_ok f.
Proof.
  intros Hz. assert (Hgo : forall sign n, In sign [""; "-"] -> Z.of_N n <= 2 ^ 63 -> exists m i,
    plain (Z.of_N n) 0 = Some (m, i) /\ parse_float (sign +:+ dec_of_N n) = Some {| f_neg := bool_decide (sign = "-"); f_mant := m; f_index := i |} /\
    float_ok {| f_neg := bool_decide (sign = "-"); f_mant := m; f_index := i |}).
  { intros sign n Hs Hn. pose proof (parse_int_float sign n Hs) as Hp. assert (H0 : -10000 < 0 < 10000) by lia.
    destruct (parse_parts sign (dec_of_N n) "" "" "" 0 _ Hs (dec_number n) (or_introl (conj eq_refl eq_refl)) (or_introl (conj eq_refl eq_refl)) (Qeq_refl _) (or_intror H0))
      as [(_ & g & Hg & [Hok _] & _)|[Hr _]].
    - rewrite !app_nil_r_s in Hg. rewrite Hp in Hg. destruct (plain (Z.of_N n) 0) as [[m i]|]; [|done]. injection Hg as <-.
      exists m, i. done.
    - exfalso. apply Hr. rewrite !app_nil_r_s. rewrite digits_value_nat. cbn [String.length]. change (0 - Z.of_nat 0) with 0.
      unfold float_range. rewrite !Qabs_Qmult. change (Qabs (10 ^ 0)) with 1%Q. rewrite Qmult_1_r.
      assert (Habs : (Qabs (inject_Z (Z.of_N n)) == inject_Z (Z.of_N n))%Q).
      { apply Qabs_pos. change 0%Q with (inject_Z 0). rewrite <- Zle_Qle. lia. }
      rewrite Habs.
      assert (Hsg : (Qabs (if decide (sign = "-") then -1 else 1) == 1)%Q) by (by destruct (decide (sign = "-"))).
      rewrite Hsg, Qmult_1_l, <- Zlt_Qlt.
      assert (H1 : 2 ^ 63 < 2 ^ 1024 - 2 ^ 970) by reflexivity. revert H1. generalize (2 ^ 1024 - 2 ^ 970). intros R HR. lia. }
  assert (Hpl : forall n, plain (Z.of_N n) 0 = to_float (Z.of_N n * 2 ^ 1074) 1).
  { intros n. unfold plain. change (0 <=? 0) with true. cbv iota. change (10 ^ 0) with 1. by rewrite Z.mul_1_r, big_eq. }
  unfold int64 in Hz. unfold float_of_int. destruct (itoa_cases z) as [(n & -> & ->)|(n & -> & -> & Hn0)].
  - destruct (Hgo "" n) as (m & i & H1 & H2 & H3); [by left|lia|]. exists {| f_neg := false; f_mant := m; f_index := i |}.
    split; [exact H2|]. split; [|exact H3].
    replace (Z.abs (Z.of_N n)) with (Z.of_N n) by lia. rewrite <- Hpl, H1. replace (Z.of_N n <? 0) with false by lia. done.
  - destruct (Hgo "-" n) as (m & i & H1 & H2 & H3); [right; by left|lia|]. exists {| f_neg := true; f_mant := m; f_index := i |}.
    split; [exact H2|]. split; [|exact H3].
    replace (Z.abs (- Z.of_N n)) with (Z.of_N n) by lia. rewrite <- Hpl, H1. replace (- Z.of_N n <? 0) with true by lia. done.
Qed.
