(** float64 and decimals: [dec_to_float], shortest decimals, literals. *)
From Verif.Model Require Import Float Json.
From Verif.Proof Require Import StrFacts DecFacts FloatFacts.
From Coq Require Import ZifyBool Psatz.
Local Open Scope Z_scope.

(** ** Digits *)
Definition pow10 (s : string) : Z := 10 ^ Z.of_nat (slen s).
Lemma pow10_pos s : 0 < pow10 s.
Proof. apply Z.pow_pos_nonneg; lia. Qed.
Lemma pow10_cons a s : pow10 (String a s) = 10 * pow10 s.
Proof. unfold pow10. cbn [slen]. rewrite Nat2Z.inj_succ, Z.pow_succ_r by lia. done. Qed.
Lemma digit_bound a : is_digit a = true -> 0 <= Z.of_N (ord a - 48) < 10.
Proof. unfold is_digit. lia. Qed.

Lemma dec_value_shift s : digits s = true ->
  exists v, 0 <= v < pow10 s /\ forall acc, dec_value s acc = Some (acc * Z.to_N (pow10 s) + Z.to_N v)%N.
Proof.
  induction s as [|a s IH]; intros Hd.
  - exists 0. change (pow10 "") with 1. split; [lia|]. intros acc. cbn [dec_value]. f_equal. lia.
  - unfold digits in *. cbn in Hd. apply andb_true_iff in Hd as [Ha Hd]. destruct (IH Hd) as (v & Hv & H).
    pose proof (digit_bound a Ha) as Hb. pose proof (pow10_pos s) as Hp. rewrite pow10_cons.
    exists (Z.of_N (ord a - 48) * pow10 s + v). split; [nia|]. intros acc. cbn [dec_value]. rewrite Ha, H. f_equal.
    set (P := pow10 s) in *. set (x := (ord a - 48)%N) in *. clearbody P x.
    rewrite Z2N.inj_add, !Z2N.inj_mul, N2Z.id by lia. change (Z.to_N 10) with 10%N. lia.
Qed.
Lemma dec_value_bound s : digits s = true ->
  exists v, dec_value s 0 = Some (Z.to_N v) /\ 0 <= v < pow10 s /\
    ((forall r, s <> String "0" r) -> s <> "" -> pow10 s <= 10 * v).
Proof.
  intros Hd. destruct (dec_value_shift s Hd) as (v & Hv & H). exists v. rewrite H, N.mul_0_l, N.add_0_l.
  split; [done|]. split; [done|]. intros H0 Hne. destruct s as [|a s]; [done|].
  unfold digits in Hd. cbn in Hd. apply andb_true_iff in Hd as [Ha Hd]. destruct (dec_value_shift s Hd) as (v' & Hv' & H').
  specialize (H 0%N). cbn [dec_value] in H. rewrite Ha, H' in H. rewrite pow10_cons in *.
  assert (Hz : Z.of_N (ord a - 48) <> 0).
  { intros Hz. apply (H0 s). f_equal. assert (Hab : negb (is_digit a && (ord a =? 48)%N) || Ascii.eqb a "0" = true).
    { clear. revert a. apply ascii_forall. vm_compute. reflexivity. }
    rewrite Ha in Hab. unfold is_digit in Ha. replace (ord a =? 48)%N with true in Hab by lia. cbn in Hab. by apply Ascii.eqb_eq. }
  pose proof (digit_bound a Ha). pose proof (pow10_pos s).
  injection H as H. set (P := pow10 s) in *. set (x := (ord a - 48)%N) in *. clearbody P x.
  assert (Z.of_N x * P + v' = v) by nia. nia.
Qed.

Lemma ndigits_spec q : 0 < q -> 0 < ndigits q /\ 10 ^ (ndigits q - 1) <= q < 10 ^ ndigits q.
Proof.
  intros Hq. unfold ndigits. destruct (dec_of_N_spec (Z.to_N q)) as (Hd & Hne & Hv & H0).
  destruct (dec_value_bound _ Hd) as (v & Hv' & Hb & Hl). rewrite Hv in Hv'. injection Hv' as Hv'.
  assert (v = q) as -> by lia. unfold pow10 in *. set (s := dec_of_N (Z.to_N q)) in *.
  assert (Hlen : (0 < slen s)%nat) by (destruct s; [done|cbn; lia]).
  split; [lia|]. split; [|lia].
  assert (Hle : 10 ^ Z.of_nat (slen s) <= 10 * q).
  { apply Hl; [|done]. intros r Hr. destruct (H0 ltac:(lia)) as (d & r' & Hs & Hd0). congruence. }
  replace (Z.of_nat (slen s)) with (Z.succ (Z.of_nat (slen s) - 1)) in Hle by lia.
  rewrite Z.pow_succ_r in Hle by lia. lia.
Qed.
Lemma ndigits_unique q k : 0 < q -> 0 <= k -> 10 ^ k <= q < 10 ^ (k + 1) -> ndigits q = k + 1.
Proof.
  intros Hq Hk Hb. destruct (ndigits_spec q Hq) as (Hn & H1 & H2). set (n := ndigits q) in *.
  destruct (Z.lt_trichotomy n (k + 1)) as [H|[H|H]]; [|done|].
  - assert (10 ^ n <= 10 ^ k) by (apply Z.pow_le_mono_r; lia). lia.
  - assert (10 ^ (k + 1) <= 10 ^ (n - 1)) by (apply Z.pow_le_mono_r; lia). lia.
Qed.
Lemma ndigits_mul10 q k : 0 < q -> 0 <= k -> ndigits (q * 10 ^ k) = ndigits q + k.
Proof.
  intros Hq Hk. destruct (ndigits_spec q Hq) as (Hn & H1 & H2).
  assert (Hp : 0 < 10 ^ k) by (apply Z.pow_pos_nonneg; lia).
  replace (ndigits q + k) with (ndigits q - 1 + k + 1) by lia. apply ndigits_unique; [lia|lia|].
  replace (ndigits q - 1 + k + 1) with (ndigits q + k) by lia. rewrite !Z.pow_add_r by lia. nia.
Qed.

(** ** dec_to_float without its limits *)
Definition big : Z := 2 ^ 1074.
Lemma big_pos : 0 < big.
Proof. reflexivity. Qed.
Lemma big_eq : 2 ^ 1074 = big.
Proof. reflexivity. Qed.
Lemma big_limits : 2 ^ 2098 <= 10 ^ 310 * big /\ 2 * big < 10 ^ 331.
Proof. split; [apply Z.leb_le|apply Z.ltb_lt]; vm_compute; reflexivity. Qed.
#[local] Opaque big.
Definition plain (q x : Z) : option (Z * Z) :=
  if 0 <=? x then to_float (q * 10 ^ x * big) 1 else to_float (q * big) (10 ^ (- x)).

Lemma to_float_tiny n d : 0 < d -> 0 <= n -> 2 * n < d -> to_float n d = Some (0, 0).
Proof.
  intros Hd Hn Ht. rewrite to_float_unfold. assert (Hi : index n d = 0).
  { unfold index. rewrite Z.div_small by lia. reflexivity. }
  rewrite Hi. change (2 ^ 0) with 1. rewrite Z.mul_1_r.
  assert (Hm : half_even n d = 0). { unfold half_even. rewrite Z.div_small, Z.mod_small by lia. destruct (Z.compare_spec (2 * n) d); lia. }
  rewrite Hm. reflexivity.
Qed.
#[local] Opaque to_float.
Lemma plain_spec q x : 0 <= q -> dec_to_float q x = plain q x.
Proof.
  intros Hq. unfold dec_to_float, plain. rewrite big_eq. pose proof big_pos as Hbig.
  destruct (Z.eqb_spec q 0) as [->|Hq0].
  { rewrite !Z.mul_0_l. destruct (0 <=? x) eqn:E.
    - by rewrite to_float_tiny by lia.
    - rewrite to_float_tiny; try lia; try done; apply Z.pow_pos_nonneg; lia. }
  assert (Hq' : 0 < q) by lia. destruct (ndigits_spec q Hq') as (Hn & H1 & H2). set (n := ndigits q) in *.
  destruct (Z.ltb_spec 310 (n + x)) as [Hg|Hg].
  - assert (Hgoal : forall a b, 0 < b -> 0 <= a -> b * (10 ^ 310 * big) <= a -> None = to_float a b).
    { clear. intros a b Hb Ha Hab. symmetry.
      pose proof (proj1 big_limits) as Hbe.
      assert (Hp0 : 0 < 2 ^ 2044) by reflexivity. apply to_float_none; [done|done|].
      set (T := 2 ^ 2098) in *. set (U := 2 ^ 2044) in *. set (V := 10 ^ 310 * big) in *. clearbody T U V. nia. }
    destruct (Z.leb_spec 0 x) as [Hx|Hx].
    + assert (Hp : 0 < 10 ^ x) by (apply Z.pow_pos_nonneg; lia).
      assert (Hge : 10 ^ 310 <= q * 10 ^ x).
      { transitivity (10 ^ (n - 1) * 10 ^ x); [rewrite <- Z.pow_add_r by lia; apply Z.pow_le_mono_r; lia|nia]. }
      apply Hgoal; [lia| |]; set (B := big) in *; clearbody B; revert Hge; generalize (10 ^ 310); intros; nia.
    + assert (Hp : 0 < 10 ^ (- x)) by (apply Z.pow_pos_nonneg; lia).
      assert (Hge : 10 ^ (- x) * 10 ^ 310 <= q).
      { transitivity (10 ^ (n - 1)); [rewrite <- Z.pow_add_r by lia; apply Z.pow_le_mono_r; lia|lia]. }
      apply Hgoal; [lia| |]; set (B := big) in *; clearbody B; revert Hge; generalize (10 ^ 310); intros; nia.
  - destruct (Z.ltb_spec (n + x) (-330)) as [Hl|Hl]; [|done].
    destruct (Z.leb_spec 0 x) as [Hx|Hx]; [lia|]. symmetry. apply to_float_tiny.
    + apply Z.pow_pos_nonneg; lia.
    + set (B := big) in *; clearbody B; nia.
    + pose proof (proj2 big_limits) as Hsm.
      assert (Hle : 10 ^ n * 10 ^ 331 <= 10 ^ (- x)) by (rewrite <- Z.pow_add_r by lia; apply Z.pow_le_mono_r; lia).
      set (B := big) in *. set (V := 10 ^ 331) in *. clearbody B V. nia.
Qed.
Lemma plain_shift q x k : 0 <= q -> 0 <= k -> plain (q * 10 ^ k) x = plain q (x + k).
Proof.
  intros Hq Hk. unfold plain. assert (Hp : 0 < 10 ^ k) by (apply Z.pow_pos_nonneg; lia). set (B := big).
  destruct (Z.leb_spec 0 x) as [Hx|Hx].
  - replace (0 <=? x + k) with true by lia. rewrite (Z.add_comm x k), Z.pow_add_r by lia. f_equal. lia.
  - destruct (Z.leb_spec 0 (x + k)) as [Hxk|Hxk].
    + replace (q * 10 ^ k * B) with (10 ^ (- x) * (q * 10 ^ (x + k) * B)).
      2:{ replace k with (- x + (x + k)) at 2 by lia. rewrite (Z.pow_add_r 10 (- x) (x + k)) by lia. lia. }
      rewrite <- (Z.mul_1_r (10 ^ (- x))) at 2. apply to_float_scale; [|lia]. apply Z.pow_pos_nonneg; lia.
    + replace (q * 10 ^ k * B) with (10 ^ k * (q * B)) by lia.
      replace (10 ^ (- x)) with (10 ^ k * 10 ^ (- (x + k))).
      2:{ rewrite <- Z.pow_add_r by lia. f_equal. lia. }
      apply to_float_scale; [lia|]. apply Z.pow_pos_nonneg; lia.
Qed.

Lemma exact_plain m i : fin m i -> let '(d, x) := exact_decimal m i in plain d x = Some (m, i) /\ 0 <= d /\ (0 < m -> 0 < d).
Proof.
  intros Hf. unfold exact_decimal, plain. pose proof Hf as (Hm & Hi & _).
  destruct (Z.leb_spec 1074 i) as [H|H].
  - change (0 <=? 0) with true. cbv iota. change (10 ^ 0) with 1.
    assert (Hp : 0 < 2 ^ (i - 1074)) by (apply Z.pow_pos_nonneg; lia). split; [|nia].
    rewrite <- (to_float_exact m i 1 Hf) by lia. f_equal. rewrite <- big_eq.
    replace i with ((i - 1074) + 1074) at 2 by lia. rewrite (Z.pow_add_r 2 (i - 1074) 1074) by lia.
    set (B := 2 ^ 1074). clearbody B. lia.
  - replace (0 <=? i - 1074) with false by lia.
    assert (Hp : 0 < 5 ^ (1074 - i)) by (apply Z.pow_pos_nonneg; lia). split; [|nia].
    rewrite <- (to_float_exact m i (10 ^ (1074 - i)) Hf) by (apply Z.pow_pos_nonneg; lia).
    f_equal; [|f_equal; lia]. rewrite <- big_eq. replace (2 ^ 1074) with (2 ^ (1074 - i) * 2 ^ i).
    2:{ rewrite <- Z.pow_add_r by lia. f_equal. lia. }
    change 10 with (5 * 2). rewrite Z.pow_mul_l. lia.
Qed.

(** ** Shortest decimals *)
Lemma denotes_plain m i q x : 0 <= q -> denotes m i q x = true -> plain q x = Some (m, i).
Proof.
  intros Hq. unfold denotes. rewrite plain_spec by done. destruct (plain q x) as [[m' i']|]; [|done].
  rewrite andb_true_iff, !Z.eqb_eq. by intros [-> ->].
Qed.
Lemma half_even_two n d : half_even n d = n / d \/ half_even n d = n / d + 1.
Proof. unfold half_even. destruct (_ ?= _); [destruct (Z.even _)|..]; auto. Qed.
Lemma shorten_plain fuel m i d x len n : 0 <= d -> plain d x = Some (m, i) ->
  let '(q, x') := shorten fuel m i d x len n in plain q x' = Some (m, i) /\ 0 <= q.
Proof.
  intros Hd Hp. revert n. induction fuel as [|f IH]; intros n; cbn [shorten]; [done|].
  destruct (len <=? n) eqn:E; [done|]. set (u := 10 ^ (len - n)). set (x' := x + (len - n)).
  assert (Hu : 0 < u) by (apply Z.pow_pos_nonneg; lia). assert (Hq : 0 <= d / u) by (apply Z.div_pos; lia).
  cbv zeta. destruct (denotes m i (d / u) x') eqn:E1, (denotes m i (d / u + 1) x') eqn:E2.
  - apply denotes_plain in E1, E2; [|lia..]. destruct (half_even_two d u) as [-> | ->]; split; done || lia.
  - apply denotes_plain in E1; [|lia..]. done.
  - apply denotes_plain in E2; [|lia..]. split; [done|lia].
  - apply IH.
Qed.
Lemma trim_plain fuel q x : 0 <= q ->
  let '(q', x') := trim_zeros fuel q x in plain q' x' = plain q x /\ 0 <= q'.
Proof.
  revert q x. induction fuel as [|f IH]; intros q x Hq; cbn [trim_zeros]; [done|].
  destruct (Z.eqb_spec (q mod 10) 0) as [E|E]; [|done].
  specialize (IH (q / 10) (x + 1) ltac:(apply Z.div_pos; lia)). destruct (trim_zeros f (q / 10) (x + 1)) as [q' x'].
  destruct IH as [-> H]. split; [|done]. rewrite <- (plain_shift (q / 10) x 1) by (try apply Z.div_pos; lia).
  f_equal. pose proof (Z.div_mod q 10). lia.
Qed.
Lemma plain_zero x : plain 0 x = Some (0, 0).
Proof. rewrite <- plain_spec by lia. reflexivity. Qed.
Lemma shortest_plain m i : fin m i -> 0 < m -> let '(q, x) := shortest m i in plain q x = Some (m, i) /\ 0 < q.
Proof.
  intros Hf Hm. unfold shortest. pose proof (exact_plain m i Hf) as H. destruct (exact_decimal m i) as [d x].
  destruct H as (Hp & Hd & _). pose proof (shorten_plain (Z.to_nat (ndigits d)) m i d x (ndigits d) 1 Hd Hp) as H.
  destruct (shorten _ m i d x (ndigits d) 1) as [q x']. destruct H as [H1 H2].
  pose proof (trim_plain (Z.to_nat (ndigits q)) q x' H2) as H. destruct (trim_zeros _ q x') as [q' x'']. destruct H as [H3 H4].
  rewrite H1 in H3. split; [done|]. destruct (Z.eq_dec q' 0) as [->|]; [|lia]. rewrite plain_zero in H3. injection H3 as H3 _. lia.
Qed.
(** A decimal that stands for a number in range is of moderate size. *)
Lemma plain_size q x m i : 0 < q -> 0 < m -> plain q x = Some (m, i) -> -330 <= ndigits q + x <= 310.
Proof.
  intros Hq Hm. rewrite <- plain_spec by lia. unfold dec_to_float. replace (q =? 0) with false by lia.
  destruct (310 <? ndigits q + x) eqn:E1; [done|]. destruct (ndigits q + x <? -330) eqn:E2; [|lia].
  intros [= <- _]. lia.
Qed.
