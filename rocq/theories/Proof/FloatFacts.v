(** float64: rounding, shortest decimals, literals. *)
From Verif.Model Require Import Float.
From Coq Require Import ZifyBool Psatz.
Local Open Scope Z_scope.

(** A float64 without sign. *)
Definition fin (m i : Z) : Prop := 0 <= m < 2 ^ 53 /\ 0 <= i <= 2045 /\ (2 ^ 52 <= m \/ i = 0).

Lemma half_even_bound n d : 0 < d -> Z.abs (n - d * half_even n d) * 2 <= d.
Proof.
  intros Hd. unfold half_even. pose proof (Z.div_mod n d ltac:(lia)). pose proof (Z.mod_pos_bound n d Hd).
  destruct (Z.compare_spec (2 * (n mod d)) d); [destruct (Z.even (n / d))|..]; lia.
Qed.
(** The nearest multiple, even on a tie. *)
Lemma half_even_nearest n d j : 0 < d ->
  Z.abs (n - d * half_even n d) <= Z.abs (n - d * j) /\
  (Z.abs (n - d * half_even n d) = Z.abs (n - d * j) -> j <> half_even n d -> Z.even (half_even n d) = true).
Proof.
  intros Hd. unfold half_even. pose proof (Z.div_mod n d ltac:(lia)) as Hn. pose proof (Z.mod_pos_bound n d Hd) as Hm.
  set (q := n / d) in *. set (r := n mod d) in *.
  assert (Hj : j <= q - 1 \/ j = q \/ j = q + 1 \/ q + 2 <= j) by lia.
  assert (H1 : j <= q - 1 -> d * j <= d * q - d) by nia.
  assert (H2 : q + 2 <= j -> d * q + 2 * d <= d * j) by nia.
  assert (H3 : j = q + 1 -> d * j = d * q + d) by (intros ->; lia).
  assert (H4 : j = q -> d * j = d * q) by (intros ->; lia).
  assert (H5 : d * (q + 1) = d * q + d) by lia.
  destruct (Z.compare_spec (2 * r) d) as [E|E|E].
  - destruct (Z.even q) eqn:Ev.
    + split; [lia|]. done.
    + split; [lia|]. intros _ _. rewrite Z.even_add, Ev. reflexivity.
  - split; [lia|]. lia.
  - split; [lia|]. lia.
Qed.
Lemma half_even_scale c n d : 0 < c -> 0 < d -> half_even (c * n) (c * d) = half_even n d.
Proof.
  intros Hc Hd. unfold half_even. rewrite Z.div_mul_cancel_l, Z.mul_mod_distr_l by lia.
  replace (2 * (c * (n mod d))) with (c * (2 * (n mod d))) by lia.
  by rewrite <- (Zmult_compare_compat_l _ _ c) by lia.
Qed.
Lemma half_even_mul d j : 0 < d -> half_even (d * j) d = j.
Proof.
  intros Hd. unfold half_even. rewrite (Z.mul_comm d j), Z.div_mul, Z.mod_mul by lia.
  destruct (Z.compare_spec (2 * 0) d); lia.
Qed.
Lemma half_even_mono_lo n d a : 0 < d -> d * a <= n -> a <= half_even n d.
Proof.
  intros Hd Ha. unfold half_even. assert (a <= n / d) by (apply Z.div_le_lower_bound; lia).
  destruct (_ ?= _); [destruct (Z.even _)|..]; lia.
Qed.
Lemma half_even_mono_hi n d a : 0 < d -> n <= d * a -> half_even n d <= a.
Proof.
  intros Hd Ha. pose proof (half_even_nearest n d a Hd) as [H _].
  destruct (Z.le_gt_cases (half_even n d) a) as [|Hgt]; [done|].
  exfalso. nia.
Qed.
Lemma half_even_nonneg n d : 0 < d -> 0 <= n -> 0 <= half_even n d.
Proof. intros. apply half_even_mono_lo; lia. Qed.

(** ** to_float *)

(** The index chosen, and the bounds it guarantees. *)
Definition index (n d : Z) : Z := Z.max 0 (Z.log2 (n / d) - 52).
Lemma index_bounds n d : 0 < d -> 0 <= n ->
  0 <= index n d /\ n < d * 2 ^ index n d * 2 ^ 53 /\ (0 < index n d -> d * 2 ^ index n d * 2 ^ 52 <= n).
Proof.
  intros Hd Hn. unfold index. set (u := n / d).
  assert (Hu : 0 <= u) by (apply Z.div_pos; lia).
  assert (Hlo : d * u <= n) by (apply Z.mul_div_le; lia).
  assert (Hhi : n < d * (u + 1)). { pose proof (Z.mul_succ_div_gt n d Hd). fold u in H. lia. }
  split; [lia|]. destruct (Z.eq_dec u 0) as [E|E].
  - rewrite E in *. change (Z.log2 0 - 52) with (-52). change (Z.max 0 (-52)) with 0. change (2 ^ 0) with 1.
    split; [change (2 ^ 53) with 9007199254740992; lia|lia].
  - pose proof (Z.log2_spec u ltac:(lia)) as [L1 L2]. set (k := Z.log2 u) in *.
    assert (Hk : 0 <= k) by apply Z.log2_nonneg.
    split.
    + assert (Hp : 2 ^ Z.succ k <= 2 ^ Z.max 0 (k - 52) * 2 ^ 53).
      { rewrite <- Z.pow_add_r by lia. apply Z.pow_le_mono_r; lia. }
      nia.
    + intros Hpos. assert (Hp : 2 ^ Z.max 0 (k - 52) * 2 ^ 52 <= 2 ^ k).
      { rewrite <- Z.pow_add_r by lia. apply Z.pow_le_mono_r; lia. }
      nia.
Qed.

Lemma to_float_unfold n d : to_float n d =
  let m := half_even n (d * 2 ^ index n d) in
  let '(m, i) := if m =? 2 ^ 53 then (2 ^ 52, index n d + 1) else (m, index n d) in
  if 2045 <? i then None else Some (m, i).
Proof. reflexivity. Qed.

(** What is chosen before the range is checked. *)
Lemma to_float_cases n d : 0 < d -> 0 <= n ->
  exists m i, to_float n d = (if 2045 <? i then None else Some (m, i)) /\ 0 <= i /\ 0 <= m < 2 ^ 53 /\ (2 ^ 52 <= m \/ i = 0) /\
    (forall j k, 0 <= j < 2 ^ 53 -> 0 <= k ->
       Z.abs (n - d * (m * 2 ^ i)) <= Z.abs (n - d * (j * 2 ^ k)) /\
       (Z.abs (n - d * (m * 2 ^ i)) = Z.abs (n - d * (j * 2 ^ k)) -> j * 2 ^ k <> m * 2 ^ i -> Z.even m = true)).
Proof.
  intros Hd Hn. destruct (index_bounds n d Hd Hn) as (Hi & Hhi & Hlo). set (i := index n d) in *.
  assert (Hw : 0 < 2 ^ i) by (apply Z.pow_pos_nonneg; lia).
  set (w := d * 2 ^ i). assert (Hw' : 0 < w) by (unfold w; lia).
  set (m := half_even n w).
  assert (Hm0 : 0 <= m) by (apply half_even_nonneg; lia).
  assert (Hm1 : m <= 2 ^ 53) by (apply half_even_mono_hi; unfold w in *; lia).
  assert (Hm2 : 0 < i -> 2 ^ 52 <= m) by (intros H; apply half_even_mono_lo; [lia|unfold w in *; lia]).
  assert (Hnear : forall j k, 0 <= j < 2 ^ 53 -> 0 <= k ->
       Z.abs (n - d * (m * 2 ^ i)) <= Z.abs (n - d * (j * 2 ^ k)) /\
       (Z.abs (n - d * (m * 2 ^ i)) = Z.abs (n - d * (j * 2 ^ k)) -> j * 2 ^ k <> m * 2 ^ i -> Z.even m = true)).
  { intros j k Hj Hk. replace (d * (m * 2 ^ i)) with (w * m) by (unfold w; lia).
    destruct (Z.le_gt_cases i k) as [Hik|Hik].
    - replace (d * (j * 2 ^ k)) with (w * (j * 2 ^ (k - i))).
      2:{ unfold w. replace k with (i + (k - i)) at 2 by lia. rewrite Z.pow_add_r by lia. lia. }
      destruct (half_even_nearest n w (j * 2 ^ (k - i)) Hw') as [H1 H2]. split; [done|].
      intros He Hne. apply H2; [done|]. intros Hq. apply Hne. fold m in Hq. rewrite <- Hq.
      rewrite <- Z.mul_assoc, <- Z.pow_add_r by lia. do 2 f_equal. lia.
    - assert (Hb : j * 2 ^ k < 2 ^ 52 * 2 ^ i).
      { assert (2 ^ 53 * 2 ^ k <= 2 ^ 52 * 2 ^ i) by (rewrite <- !Z.pow_add_r by lia; apply Z.pow_le_mono_r; lia).
        assert (0 < 2 ^ k) by (apply Z.pow_pos_nonneg; lia). nia. }
      specialize (Hlo ltac:(lia)).
      assert (Hc : d * (j * 2 ^ k) < w * 2 ^ 52) by (unfold w; nia).
      destruct (half_even_nearest n w (2 ^ 52) Hw') as [H1 _]. fold m in H1. fold w in Hlo. split; [lia|]. lia. }
  destruct (Z.eq_dec m (2 ^ 53)) as [E|E].
  - exists (2 ^ 52), (i + 1). split.
    { rewrite to_float_unfold. fold i. fold w. cbv zeta. fold m. by rewrite E, Z.eqb_refl. }
    split; [lia|]. split; [lia|]. split; [by left|].
    assert (Hs : 2 ^ 52 * 2 ^ (i + 1) = m * 2 ^ i) by (rewrite E, <- !Z.pow_add_r by lia; f_equal; lia).
    intros j k Hj Hk. rewrite Hs. destruct (Hnear j k Hj Hk) as [H1 _]. done.
  - exists m, i. split.
    { rewrite to_float_unfold. fold i. fold w. cbv zeta. fold m. apply Z.eqb_neq in E. by rewrite E. }
    split; [lia|]. split; [lia|]. split; [|done].
    destruct (Z.eq_dec i 0); [by right|left; apply Hm2; lia].
Qed.

Lemma to_float_scale c n d : 0 < c -> 0 < d -> to_float (c * n) (c * d) = to_float n d.
Proof.
  intros Hc Hd. rewrite !to_float_unfold. unfold index.
  rewrite Z.div_mul_cancel_l by lia. rewrite <- Z.mul_assoc.
  rewrite half_even_scale; [done|lia|]. apply Z.mul_pos_pos; [lia|]. apply Z.pow_pos_nonneg; lia.
Qed.

Lemma to_float_exact m i d : fin m i -> 0 < d -> to_float (d * (m * 2 ^ i)) d = Some (m, i).
Proof.
  intros (Hm & Hi & Hc) Hd. rewrite to_float_unfold.
  assert (Hidx : index (d * (m * 2 ^ i)) d = i).
  { unfold index. rewrite (Z.mul_comm d), Z.div_mul by lia. destruct Hc as [Hc| ->].
    - assert (Hl : Z.log2 m = 52) by (apply Z.log2_unique; lia).
      rewrite Z.log2_mul_pow2 by lia. lia.
    - rewrite Z.mul_1_r. assert (Z.log2 m <= 52).
      { destruct (Z.eq_dec m 0) as [->|]; [by cbn|]. assert (Z.log2 m < 53); [|lia]. apply Z.log2_lt_pow2; lia. }
      lia. }
  rewrite Hidx. assert (0 < 2 ^ i) by (apply Z.pow_pos_nonneg; lia).
  replace (d * (m * 2 ^ i)) with (d * 2 ^ i * m) by lia. rewrite half_even_mul by lia. cbv zeta.
  replace (m =? 2 ^ 53) with false by lia. replace (2045 <? i) with false by lia. done.
Qed.
Lemma to_float_fin n d m i : 0 < d -> 0 <= n -> to_float n d = Some (m, i) -> fin m i.
Proof.
  intros Hd Hn. destruct (to_float_cases n d Hd Hn) as (m' & i' & -> & H1 & H2 & H3 & _).
  destruct (Z.ltb_spec 2045 i'); [done|]. intros [= <- <-]. split; [done|]. split; [lia|done].
Qed.

Lemma out_of_range T n d : 1 <= T -> 0 < d -> 0 <= n ->
  (let m := half_even n (d * 2 ^ index n d) in
   let '(m, i) := if m =? 2 ^ 53 then (2 ^ 52, index n d + 1) else (m, index n d) in
   if T <? i then None else Some (m, i)) = None <-> d * (2 ^ (T + 53) - 2 ^ (T - 1)) <= n.
Proof.
  intros HT Hd Hn. destruct (index_bounds n d Hd Hn) as (Hi & Hhi & Hlo).
  set (i := index n d) in *. cbv zeta.
  assert (Hw : 0 < 2 ^ i) by (apply Z.pow_pos_nonneg; lia).
  set (w := d * 2 ^ i) in *. assert (Hw' : 0 < w) by (unfold w; lia).
  assert (HT1 : 2 ^ T = 2 * 2 ^ (T - 1)) by (rewrite <- (Z.pow_1_r 2) at 2; rewrite <- Z.pow_add_r by lia; f_equal; lia).
  assert (HT2 : 2 ^ (T + 53) = 2 * 2 ^ (T - 1) * 2 ^ 53) by (rewrite Z.pow_add_r by lia; rewrite HT1; done).
  assert (Hp : 0 < 2 ^ (T - 1)) by (apply Z.pow_pos_nonneg; lia).
  rewrite HT2. set (P := 2 ^ (T - 1)) in *. set (K := 2 ^ 53) in *. assert (HK : K = 9007199254740992) by reflexivity.
  destruct (Z.lt_trichotomy i T) as [Hlt|[He|Hgt]].
  - assert (Hb : 2 ^ i * 2 <= 2 ^ T).
    { rewrite <- (Z.pow_1_r 2) at 2. rewrite <- Z.pow_add_r by lia. apply Z.pow_le_mono_r; lia. }
    assert (Hn' : n < d * (2 * P * K - P)).
    { assert (w * 2 <= d * (2 * P)) by (unfold w; nia). nia. }
    destruct (half_even n w =? K); cbn [fst snd].
    + replace (T <? i + 1) with false by lia. split; [done|lia].
    + replace (T <? i) with false by lia. split; [done|lia].
  - assert (Hwe : w = d * (2 * P)) by (unfold w; rewrite He, HT1; done).
    assert (Hgoal : d * (2 * P * K - P) <= n <-> half_even n w = K).
    { split.
      - intros Hge. assert (Hup : half_even n w <= K) by (apply half_even_mono_hi; lia).
        destruct (Z.eq_dec (half_even n w) K) as [|Hne]; [done|exfalso].
        destruct (half_even_nearest n w K Hw') as [H1 H2].
        assert (half_even n w <= K - 1) by lia.
        assert (Hd1 : w * (half_even n w) <= w * (K - 1)) by nia.
        assert (Heq : half_even n w = K - 1) by nia.
        specialize (H2 ltac:(rewrite Heq in *; nia) ltac:(lia)). rewrite Heq in H2. rewrite HK in H2. discriminate.
      - intros Heq. destruct (half_even_nearest n w (K - 1) Hw') as [H1 _]. rewrite Heq in H1. nia. }
    destruct (Z.eqb_spec (half_even n w) K) as [E|E].
    + rewrite He. replace (T <? T + 1) with true by lia. split; [intros _; by apply Hgoal|done].
    + rewrite He. replace (T <? T) with false by lia. split; [done|]. intros H. by apply Hgoal in H.
  - specialize (Hlo ltac:(lia)).
    assert (Hb : 2 * 2 ^ T <= 2 ^ i).
    { rewrite <- (Z.pow_1_r 2) at 1. rewrite <- Z.pow_add_r by lia. apply Z.pow_le_mono_r; lia. }
    assert (H52 : K = 2 * 2 ^ 52) by reflexivity.
    assert (Hn' : d * (2 * P * K) <= n).
    { rewrite H52. assert (d * (2 * (2 * P)) <= w) by (unfold w; rewrite HT1 in Hb; nia).
      assert (0 < 2 ^ 52) by reflexivity. nia. }
    destruct (half_even n w =? K); cbn [fst snd].
    + replace (T <? i + 1) with true by lia. split; [intros _; nia|done].
    + replace (T <? i) with true by lia. split; [intros _; nia|done].
Qed.
Lemma to_float_none n d : 0 < d -> 0 <= n -> to_float n d = None <-> d * (2 ^ 2098 - 2 ^ 2044) <= n.
Proof. intros Hd Hn. exact (out_of_range 2045 n d ltac:(lia) Hd Hn). Qed.
