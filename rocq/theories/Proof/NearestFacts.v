(** The nearest float64 is one. *)
From Coq Require Import QArith Qabs Qpower ZifyBool Psatz Lqa.
From Verif.Model Require Import Float.
From Verif.Spec Require Import NumberSpec.
Local Open Scope Z_scope.

Definition magnitude (f : float64) : Z := f_mant f * 2 ^ f_index f.

Lemma magnitude_eq f g : float_ok f -> float_ok g -> f_index f <= f_index g -> magnitude f = magnitude g ->
  f_mant f = f_mant g /\ f_index f = f_index g.
Proof.
  intros ((Hf1 & Hf2) & (Hf3 & Hf4) & Hf) ((Hg1 & Hg2) & (Hg3 & Hg4) & Hg) Hi H. unfold magnitude in H.
  destruct (Z.eq_dec (f_index f) (f_index g)) as [E|Hne].
  - split; [|done]. rewrite E in H. assert (0 < 2 ^ f_index g) by (apply Z.pow_pos_nonneg; lia). nia.
  - exfalso. destruct Hg as [Hg|Hg]; [|lia]. assert (H0 : 0 < 2 ^ f_index f) by (apply Z.pow_pos_nonneg; lia).
    assert (E : 2 ^ f_index g = 2 ^ (f_index g - f_index f - 1) * 2 * 2 ^ f_index f).
    { rewrite <- Z.mul_assoc, <- (Z.pow_succ_r 2 (f_index f)), <- Z.pow_add_r by lia. f_equal. lia. }
    assert (1 <= 2 ^ (f_index g - f_index f - 1)). { assert (0 < 2 ^ (f_index g - f_index f - 1)) by (apply Z.pow_pos_nonneg; lia). lia. }
    rewrite E in H. change (2 ^ 53) with (2 * 2 ^ 52) in *. nia.
Qed.
Lemma magnitude_same f g : float_ok f -> float_ok g -> magnitude f = magnitude g -> f_mant f = f_mant g /\ f_index f = f_index g.
Proof.
  intros Hf Hg H. destruct (Z.le_ge_cases (f_index f) (f_index g)) as [Hi|Hi].
  - by apply magnitude_eq.
  - destruct (magnitude_eq g f) as [-> ->]; (done || lia).
Qed.
(** The next one above. *)
Definition above (f : float64) : float64 := {| f_neg := f_neg f; f_mant := f_mant f + 1; f_index := f_index f |}.
Lemma above_ok f : float_ok f -> Z.even (f_mant f) = true -> float_ok (above f).
Proof.
  intros ((Hf1 & Hf2) & (Hf3 & Hf4) & Hf) He. unfold float_ok, above. cbn [f_mant f_index].
  assert (f_mant f <> 2 ^ 53 - 1). { intros E. rewrite E in He. discriminate He. }
  split; [lia|]. split; [lia|]. destruct Hf; [left; lia|by right].
Qed.
Lemma above_next f g : float_ok f -> float_ok g -> magnitude f < magnitude g -> magnitude (above f) <= magnitude g.
Proof.
  intros ((Hf1 & Hf2) & (Hf3 & Hf4) & Hf) ((Hg1 & Hg2) & (Hg3 & Hg4) & Hg) H. unfold magnitude, above in *. cbn [f_mant f_index].
  destruct (Z.le_gt_cases (f_index f) (f_index g)) as [Hi|Hi].
  - assert (H0 : 0 < 2 ^ f_index f) by (apply Z.pow_pos_nonneg; lia).
    assert (E : 2 ^ f_index g = 2 ^ (f_index g - f_index f) * 2 ^ f_index f) by (rewrite <- Z.pow_add_r by lia; f_equal; lia).
    rewrite E in H |- *. set (k := 2 ^ (f_index g - f_index f)) in *. rewrite Z.mul_assoc in H |- *.
    apply Z.mul_lt_mono_pos_r in H; [|done]. apply Z.mul_le_mono_nonneg_r; lia.
  - exfalso. destruct Hf as [Hf|Hf]; [|lia]. assert (H0 : 0 < 2 ^ f_index g) by (apply Z.pow_pos_nonneg; lia).
    assert (E : 2 ^ f_index f = 2 ^ (f_index f - f_index g - 1) * 2 * 2 ^ f_index g).
    { rewrite <- Z.mul_assoc, <- (Z.pow_succ_r 2 (f_index g)), <- Z.pow_add_r by lia. f_equal. lia. }
    assert (1 <= 2 ^ (f_index f - f_index g - 1)). { assert (0 < 2 ^ (f_index f - f_index g - 1)) by (apply Z.pow_pos_nonneg; lia). lia. }
    rewrite E in H. change (2 ^ 53) with (2 * 2 ^ 52) in *. nia.
Qed.
Lemma above_between f g : float_ok f -> float_ok g -> Z.even (f_mant f) = true -> Z.even (f_mant g) = true ->
  magnitude f < magnitude g -> magnitude f < magnitude (above f) < magnitude g.
Proof.
  intros Hf Hg Ef Eg H. split.
  - unfold magnitude, above. cbn [f_mant f_index]. destruct Hf as (_ & (Hf3 & _) & _).
    assert (H0 : 0 < 2 ^ f_index f) by (apply Z.pow_pos_nonneg; lia). nia.
  - pose proof (above_next f g Hf Hg H) as Hle. destruct (Z.eq_dec (magnitude (above f)) (magnitude g)) as [E|]; [|lia].
    exfalso. apply magnitude_same in E as [E _]; [|by apply above_ok|done]. cbn [above f_mant] in E. rewrite <- E in Eg.
    rewrite Z.add_1_r, Z.even_succ, <- Z.negb_even, Ef in Eg. discriminate Eg.
Qed.

Local Open Scope Q_scope.
Definition unit_q : Q := 2 ^ (-1074)%Z.
Lemma unit_pos : 0 < unit_q.
Proof. vm_compute. reflexivity. Qed.
Definition sgn (b : bool) : Q := if b then -1 else 1.
Lemma value_magnitude f : (0 <= f_index f)%Z -> float_value f == sgn (f_neg f) * inject_Z (magnitude f) * unit_q.
Proof.
  intros Hi. unfold float_value, magnitude, unit_q, sgn.
  replace (f_index f - 1074)%Z with (f_index f + -1074)%Z by lia. rewrite Qpower_plus by discriminate.
  assert (2 ^ f_index f == inject_Z (2 ^ f_index f)) as ->; [|rewrite ?inject_Z_mult; ring].
  destruct (f_index f) as [|p|p]; [reflexivity| |lia]. rewrite Zpower_Qpower by lia. reflexivity.
Qed.
Lemma closer v a b c : (a < c /\ c < b) \/ (b < c /\ c < a) -> Qabs (v - a) == Qabs (v - b) -> Qabs (v - a) <= Qabs (v - c) -> False.
Proof.
  intros H. repeat (apply Qabs_case; intros ?); intros; destruct H as [[? ?]|[? ?]]; lra.
Qed.
Lemma sgn_between b x y z : (x < y < z)%Z ->
  let w n := sgn b * inject_Z n * unit_q in (w x < w y /\ w y < w z) \/ (w z < w y /\ w y < w x).
Proof.
  intros [H1 H2] w. subst w. cbv beta. pose proof unit_pos as Hu. rewrite Zlt_Qlt in H1, H2.
  set (u := unit_q) in *. set (p := inject_Z x) in *. set (q := inject_Z y) in *. set (r := inject_Z z) in *.
  assert (A : p * u < q * u) by (by apply Qmult_lt_r). assert (B : q * u < r * u) by (by apply Qmult_lt_r).
  destruct b; cbn [sgn]; [right|left]; split; lra.
Qed.
Lemma sgn_inject b x y : sgn b * inject_Z x * unit_q == sgn b * inject_Z y * unit_q -> x = y.
Proof.
  intros H. destruct (Z.lt_trichotomy x y) as [L|[E|L]]; [exfalso|done|exfalso]; rewrite Zlt_Qlt in L.
  - assert (A : inject_Z x * unit_q < inject_Z y * unit_q) by (apply Qmult_lt_r; [apply unit_pos|done]). destruct b; cbn [sgn] in H; lra.
  - assert (A : inject_Z y * unit_q < inject_Z x * unit_q) by (apply Qmult_lt_r; [apply unit_pos|done]). destruct b; cbn [sgn] in H; lra.
Qed.

Lemma nearest_unique v f g : nearest v f -> nearest v g -> f_neg f = f_neg g -> f = g.
Proof.
  intros [Hf Nf] [Hg Ng] Hs.
  assert (Hval : float_value f == float_value g).
  { destruct (Qeq_dec (float_value f) (float_value g)) as [E|Hne]; [done|exfalso].
    destruct (Nf g Hg) as [L1 T1]. destruct (Ng f Hf) as [L2 T2]. pose proof (Qle_antisym _ _ L1 L2) as Heq.
    assert (Ef : Z.even (f_mant f) = true) by (apply T1; [done|by intros E; apply Hne; symmetry]).
    assert (Eg : Z.even (f_mant g) = true) by (apply T2; [by symmetry|done]).
    assert (If : (0 <= f_index f)%Z) by (by destruct Hf as (_ & [? _] & _)).
    assert (Ig : (0 <= f_index g)%Z) by (by destruct Hg as (_ & [? _] & _)).
    pose proof (value_magnitude f If) as Vf. pose proof (value_magnitude g Ig) as Vg.
    destruct (Z.lt_trichotomy (magnitude f) (magnitude g)) as [L|[E|L]].
    - pose proof (above_between f g Hf Hg Ef Eg L) as Hb. destruct (Nf (above f) (above_ok f Hf Ef)) as [Hc _].
      pose proof (sgn_between (f_neg f) _ _ _ Hb) as Hsb. cbv zeta in Hsb.
      pose proof (value_magnitude (above f) If) as Va. cbn [above f_neg] in Va. rewrite <- Hs in Vg.
      apply (closer v (float_value f) (float_value g) (float_value (above f))); [|done|done]. rewrite Vf, Vg, Va. exact Hsb.
    - apply Hne. rewrite Vf, Vg, Hs, E. reflexivity.
    - pose proof (above_between g f Hg Hf Eg Ef L) as Hb. destruct (Ng (above g) (above_ok g Hg Eg)) as [Hc _].
      pose proof (sgn_between (f_neg g) _ _ _ Hb) as Hsb. cbv zeta in Hsb.
      pose proof (value_magnitude (above g) Ig) as Va. cbn [above f_neg] in Va. rewrite Hs in Vf.
      apply (closer v (float_value g) (float_value f) (float_value (above g))); [|by symmetry|done]. rewrite Vf, Vg, Va. exact Hsb. }
  assert (Vf : float_value f == sgn (f_neg f) * inject_Z (magnitude f) * unit_q) by (apply value_magnitude; by destruct Hf as (_ & [? _] & _)).
  assert (Vg : float_value g == sgn (f_neg g) * inject_Z (magnitude g) * unit_q) by (apply value_magnitude; by destruct Hg as (_ & [? _] & _)).
  rewrite Hs in Vf. pose proof (Qeq_trans _ _ _ (Qeq_sym _ _ Vf) (Qeq_trans _ _ _ Hval Vg)) as E.
  apply sgn_inject in E. destruct (magnitude_same f g Hf Hg E) as [E1 E2].
  destruct f, g. cbn in *. congruence.
Qed.
