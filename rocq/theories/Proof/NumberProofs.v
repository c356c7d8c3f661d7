(** ParseFloat gives the nearest float64; what is written for a float64 is read back. *)
From Coq Require Import QArith Qabs Qpower Qfield ZifyBool Psatz.
From Verif.Model Require Import Float Json.
From Verif.Spec Require Import NumberSpec.
From Verif.Proof Require Import StrFacts DecFacts JsonFacts FloatFacts FloatText NumberFacts.
Local Open Scope Z_scope.
#[local] Opaque to_float big.

(** ** Writing *)
Lemma zeros_spec n : digits (zeros n) = true /\ slen (zeros n) = n /\ digits_value (zeros n) = 0.
Proof.
  induction n as [|n (H1 & H2 & H3)]; [done|]. cbn [zeros]. split; [|split].
  - unfold digits in *. cbn. done.
  - cbn. lia.
  - change (String "0" (zeros n)) with ("0" +:+ zeros n). rewrite digits_value_app, H3 by done. reflexivity.
Qed.
Lemma substring_parts s n k : slen s = (n + k)%nat ->
  String.substring 0 n s +:+ String.substring n k s = s /\ slen (String.substring 0 n s) = n /\ slen (String.substring n k s) = k.
Proof.
  revert s. induction n as [|n IH]; intros s Hl.
  - assert (Hz : String.substring 0 0 s = "") by (by destruct s). rewrite Hz. cbn [slen].
    assert (Hs : String.substring 0 k s = s).
    { revert k Hl. clear. induction s as [|a s IH]; intros [|k] Hl; cbn in *; try lia; [done|]. f_equal. apply IH. lia. }
    rewrite Hs. split; [done|]. split; [done|lia].
  - destruct s as [|a s]; [cbn in Hl; lia|]. cbn [slen] in Hl. destruct (IH s ltac:(lia)) as (H1 & H2 & H3).
    cbn [String.substring]. rewrite app_cons_s, H1. cbn [slen]. split; [done|]. split; [lia|done].
Qed.
Lemma digits_app s t : digits (s +:+ t) = true <-> digits s = true /\ digits t = true.
Proof. unfold digits. by rewrite all_bytes_app, andb_true_iff. Qed.

(** A literal without sign whose value is that of q * 10^x. *)
Definition written (s : string) (q x : Z) : Prop :=
  exists i f d e y, number_int i /\ number_frac f d /\ number_exp e y /\ s = i +:+ f +:+ e /\ -10000 < y < 10000 /\
    plain (digits_value (i +:+ d)) (y - Z.of_nat (slen d)) = plain q x.

Lemma fmt_f_written q x : 0 < q -> written (fmt_f q x) q x.
Proof.
  intros Hq. unfold fmt_f, written. destruct (dec_of_N_spec (Z.to_N q)) as (Hd & Hne & _ & H0).
  assert (Hv : digits_value (dec_of_N (Z.to_N q)) = q) by (rewrite digits_value_nat; lia).
  destruct (H0 ltac:(lia)) as (a & r & Hs & Ha0). set (ds := dec_of_N (Z.to_N q)) in *.
  destruct (Z.leb_spec 0 x) as [Hx|Hx].
  - destruct (zeros_spec (Z.to_nat x)) as (Z1 & Z2 & Z3).
    exists (ds +:+ zeros (Z.to_nat x)), "", "", "", 0. split; [|split; [by left|split; [by left|split; [|split; [lia|]]]]].
    + right. split; [|rewrite Hs, app_cons_s; congruence]. apply decimal_digits_spec. rewrite digits_app. split; [by rewrite Hs|done].
    + by rewrite !app_nil_r_s.
    + rewrite app_nil_r_s, digits_value_app, Z3, Z2, Hv, Z.add_0_r, Z2Nat.id by done. change (0 - Z.of_nat (slen "")) with 0.
      rewrite plain_shift by lia. f_equal.
  - destruct (Z.ltb_spec 0 (Z.of_nat (slen ds) + x)) as [Hp|Hp].
    + destruct (substring_parts ds (Z.to_nat (Z.of_nat (slen ds) + x)) (Z.to_nat (- x))) as (S1 & S2 & S3); [lia|].
      set (i := String.substring 0 _ ds) in *. set (d := String.substring _ (Z.to_nat (- x)) ds) in *. clearbody i d.
      pose proof Hd as Hd'. rewrite <- S1 in Hd'. apply digits_app in Hd' as [Di Dd].
      exists i, (String "." d), d, "", 0. split; [|split; [|split; [by left|split; [|split; [lia|]]]]].
      * right. split; [apply decimal_digits_spec; split; [intros E; rewrite E in S2; cbn [slen] in S2; lia|done]|].
        intros t Ht. rewrite Ht, app_cons_s, Hs in S1. congruence.
      * right. split; [|done]. apply decimal_digits_spec. split; [intros E; rewrite E in S3; cbn [slen] in S3; lia|done].
      * by rewrite app_nil_r_s.
      * rewrite S1, S3, Hv. f_equal. lia.
    + destruct (zeros_spec (Z.to_nat (- (Z.of_nat (slen ds) + x)))) as (Z1 & Z2 & Z3). set (z := zeros _) in *.
      exists "0", (String "." (z +:+ ds)), (z +:+ ds), "", 0. split; [by left|]. split; [|split; [by left|split; [|split; [lia|]]]].
      * right. split; [|done]. apply decimal_digits_spec. rewrite digits_app. split; [|done].
        rewrite Hs. destruct z; done.
      * rewrite app_nil_r_s. done.
      * rewrite digits_value_app by (try done; by apply digits_app). rewrite digits_value_app, Hv, Z3 by done.
        change (digits_value "0") with 0. rewrite slen_app, Z2. f_equal; lia.
Qed.
Lemma fmt_e_written q x : 0 < q -> -330 <= ndigits q + x <= 310 -> written (fmt_e q x) q x.
Proof.
  intros Hq Hb. unfold fmt_e, written, ndigits in *. destruct (dec_of_N_spec (Z.to_N q)) as (Hd & Hne & _ & H0).
  assert (Hv : digits_value (dec_of_N (Z.to_N q)) = q) by (rewrite digits_value_nat; lia).
  destruct (H0 ltac:(lia)) as (a & r & Hs & Ha0). set (ds := dec_of_N (Z.to_N q)) in *. clearbody ds. subst ds.
  cbn [slen] in *. set (e := Z.of_nat (S (slen r)) + x - 1) in *.
  pose proof Hd as Hd'. change (String a r) with (str1 a +:+ r) in Hd'. apply digits_app in Hd' as [Da Dr].
  destruct (dec_of_N_spec (Z.to_N (Z.abs e))) as (Ed & Ene & _ & _).
  exists (str1 a), (if seqb r "" then "" else "." +:+ r), r, ("e" +:+ (if e <? 0 then "-" else "+") +:+ dec_of_N (Z.to_N (Z.abs e))), e.
  split; [|split; [|split; [|split; [|split; [lia|]]]]].
  - right. split; [by apply decimal_digits_spec|]. intros t [= -> _]. done.
  - destruct (seqb r "") eqn:E.
    + left. split; [done|]. by apply seqb_true.
    + right. split; [|done]. apply decimal_digits_spec. split; [by apply seqb_false|done].
  - right. exists "e"%char, (if e <? 0 then "-" else "+"), (dec_of_N (Z.to_N (Z.abs e))).
    split; [by left|]. split; [destruct (e <? 0); cbn; tauto|]. split; [by apply decimal_digits_spec|]. split; [done|].
    rewrite digits_value_nat. destruct (Z.ltb_spec e 0); [rewrite decide_True by done|rewrite decide_False by done]; lia.
  - done.
  - change (str1 a +:+ r) with (String a r). rewrite Hv. f_equal. lia.
Qed.


(** ** The nearest float64 *)
Lemma to_float_nearest n d m i : 0 < d -> 0 <= n -> to_float n d = Some (m, i) ->
  forall t m' i', fin m' i' -> t = 1 \/ t = -1 ->
    Z.abs (n - d * (m * 2 ^ i)) <= Z.abs (n - d * (t * (m' * 2 ^ i'))) /\
    (Z.abs (n - d * (m * 2 ^ i)) = Z.abs (n - d * (t * (m' * 2 ^ i'))) -> t * (m' * 2 ^ i') <> m * 2 ^ i -> Z.even m = true).
Proof.
  intros Hd Hn Hf t m' i' (Hm' & Hi' & _) Ht. destruct (to_float_cases n d Hd Hn) as (m1 & i1 & H & Hi & Hm & Hc & Hnear).
  rewrite Hf in H. destruct (2045 <? i1); [done|]. injection H as <- <-.
  destruct Ht as [-> | ->].
  - rewrite Z.mul_1_l. apply Hnear; lia.
  - destruct (Hnear 0 0 ltac:(lia) ltac:(lia)) as [H1 H2]. rewrite !Z.mul_0_l, !Z.mul_0_r in *.
    assert (Hw : 0 <= m' * 2 ^ i') by (assert (0 < 2 ^ i') by (apply Z.pow_pos_nonneg; lia); nia).
    set (u := m * 2 ^ i) in *. set (w := m' * 2 ^ i') in *. clearbody u w. split; [nia|].
    intros He Hne. apply H2; [nia|]. assert (d * w = 0) by nia. assert (w = 0) by nia. lia.
Qed.

Section Rational.
Local Open Scope Q_scope.
Variables (n d : Z) (v0 : Q).
Hypothesis (Hd : (0 < d)%Z) (Hv : v0 == inject_Z n / (inject_Z d * inject_Z big)).
Let c : Q := / (inject_Z d * inject_Z big).
Lemma c_pos : 0 < c.
Proof.
  unfold c. apply Qinv_lt_0_compat. pose proof big_pos as Hb. rewrite <- inject_Z_mult.
  change 0 with (inject_Z 0). rewrite <- Zlt_Qlt. nia.
Qed.
Lemma mag_value m i : (0 <= i)%Z -> inject_Z m * 2 ^ (i - 1074) == inject_Z (d * (m * 2 ^ i)) * c.
Proof.
  intros Hi. pose proof big_pos as Hb. unfold c.
  assert (Hp : 2 ^ (i - 1074) == inject_Z (2 ^ i) / inject_Z big).
  { rewrite <- big_eq. rewrite !Zpower_Qpower by lia. change (inject_Z 2) with 2.
    unfold Qdiv. rewrite <- Qpower_opp. rewrite <- Qpower_plus by discriminate. apply Qeq_refl. }
  rewrite Hp, !inject_Z_mult. assert (~ inject_Z d == 0) by (change 0 with (inject_Z 0); rewrite inject_Z_injective; lia).
  assert (~ inject_Z big == 0) by (change 0 with (inject_Z 0); rewrite inject_Z_injective; lia). field. done.
Qed.
Lemma diff_value t u : Qabs (v0 - inject_Z t * (inject_Z (d * u) * c)) == inject_Z (Z.abs (n - d * (t * u))) * c.
Proof.
  assert (H : v0 - inject_Z t * (inject_Z (d * u) * c) == inject_Z (n - d * (t * u)) * c).
  { rewrite Hv. unfold Qdiv. fold c. rewrite <- (Z.add_opp_r n), inject_Z_plus, inject_Z_opp, !inject_Z_mult. ring. }
  rewrite H, Qabs_Qmult. rewrite (Qabs_pos c) by (apply Qlt_le_weak, c_pos).
  assert (Habs : forall z, Qabs (inject_Z z) == inject_Z (Z.abs z)) by done. rewrite Habs. reflexivity.
Qed.
Lemma scaled_le a b : (inject_Z a * c <= inject_Z b * c) <-> (a <= b)%Z.
Proof. rewrite Qmult_le_r by apply c_pos. by rewrite <- Zle_Qle. Qed.
Lemma scaled_lt a b : (inject_Z a * c < inject_Z b * c) <-> (a < b)%Z.
Proof. rewrite Qmult_lt_r by apply c_pos. by rewrite <- Zlt_Qlt. Qed.
Lemma scaled_eq a b : (inject_Z a * c == inject_Z b * c) <-> a = b.
Proof.
  split; [|by intros ->]. intros H. apply inject_Z_injective. apply (Qmult_inj_r _ _ c); [|done].
  intros H0. pose proof c_pos as Hc. rewrite H0 in Hc. by apply Qlt_irrefl in Hc.
Qed.

Definition sign_of (b : bool) : Z := if b then (-1)%Z else 1%Z.
Lemma sign_value (b : bool) m i : (0 <= i)%Z ->
  (if b then -1 else 1) * inject_Z m * 2 ^ (i - 1074) == inject_Z (sign_of b) * (inject_Z (d * (m * 2 ^ i)) * c).
Proof. intros Hi. rewrite <- mag_value by done. destruct b; cbn [sign_of]; change (inject_Z (-1)) with (-1); change (inject_Z 1) with 1; ring. Qed.

Lemma nearest_of (b : bool) m i : (0 <= n)%Z -> to_float n d = Some (m, i) ->
  nearest ((if b then -1 else 1) * v0) {| f_neg := b; f_mant := m; f_index := i |}.
Proof.
  intros Hn Hf. pose proof (to_float_fin n d m i Hd Hn Hf) as Hfin. split; [exact Hfin|].
  intros [b' m' i'] Hg. pose proof Hg as Hfin'. unfold float_ok in Hfin'. cbn [f_mant f_index] in Hfin'.
  unfold float_value. cbn [f_neg f_mant f_index].
  assert (Hi : (0 <= i)%Z) by (destruct Hfin; lia). assert (Hi' : (0 <= i')%Z) by lia.
  rewrite !sign_value by done. set (t := (sign_of b * sign_of b')%Z).
  assert (Ht : (t = 1 \/ t = -1)%Z) by (unfold t; destruct b, b'; cbn; lia).
  destruct (to_float_nearest n d m i Hd Hn Hf t m' i' Hfin' Ht) as [H1 H2].
  assert (Hself : Qabs ((if b then -1 else 1) * v0 - inject_Z (sign_of b) * (inject_Z (d * (m * 2 ^ i)) * c))
                  == inject_Z (Z.abs (n - d * (m * 2 ^ i))) * c).
  { rewrite <- (Z.mul_1_l (m * 2 ^ i)) at 2. rewrite <- diff_value. destruct b; cbn [sign_of].
    - rewrite <- Qabs_opp. apply Qabs_wd. change (inject_Z (-1)) with (-1). change (inject_Z 1) with 1. ring.
    - apply Qabs_wd. ring. }
  assert (Hother : Qabs ((if b then -1 else 1) * v0 - inject_Z (sign_of b') * (inject_Z (d * (m' * 2 ^ i')) * c))
                  == inject_Z (Z.abs (n - d * (t * (m' * 2 ^ i')))) * c).
  { rewrite <- diff_value. unfold t. destruct b, b'; cbn [sign_of]; change (-1 * -1)%Z with 1%Z; change (-1 * 1)%Z with (-1)%Z; change (1 * -1)%Z with (-1)%Z; change (1 * 1)%Z with 1%Z;
      change (inject_Z (-1)) with (-1); change (inject_Z 1) with 1.
    - rewrite <- Qabs_opp. apply Qabs_wd. ring.
    - rewrite <- Qabs_opp. apply Qabs_wd. ring.
    - apply Qabs_wd. ring.
    - apply Qabs_wd. ring. }
  rewrite Hself, Hother. split; [by apply scaled_le|]. intros He Hne. apply H2; [by apply scaled_eq|].
  intros Heq. apply Hne.
  transitivity (inject_Z (sign_of b * (d * (t * (m' * 2 ^ i')))) * c).
  - rewrite !inject_Z_mult. unfold t. destruct b, b'; cbn [sign_of]; change (-1 * -1)%Z with 1%Z; change (-1 * 1)%Z with (-1)%Z; change (1 * -1)%Z with (-1)%Z; change (1 * 1)%Z with 1%Z;
      change (inject_Z (-1)) with (-1); change (inject_Z 1) with 1; ring.
  - rewrite Heq, inject_Z_mult. ring.
Qed.
Lemma range_of (b : bool) : (0 <= n)%Z -> float_range ((if b then -1 else 1) * v0) <-> (to_float n d <> None).
Proof.
  intros Hn. rewrite to_float_none by done. unfold float_range.
  assert (Ha : Qabs ((if b then -1 else 1) * v0) == inject_Z n * c).
  { assert (Hv0 : Qabs v0 == inject_Z n * c).
    { rewrite Hv. apply Qabs_pos. pose proof c_pos as Hc. unfold Qdiv. fold c. apply Qmult_le_0_compat; [|by apply Qlt_le_weak].
      change 0 with (inject_Z 0). by rewrite <- Zle_Qle. }
    rewrite <- Hv0. rewrite Qabs_Qmult. destruct b; change (Qabs (-1)) with 1; change (Qabs 1) with 1; ring. }
  rewrite Ha.
  assert (Hpow : (2 ^ 2098 - 2 ^ 2044 = (2 ^ 1024 - 2 ^ 970) * big)%Z).
  { rewrite <- big_eq, Z.mul_sub_distr_r, <- !Z.pow_add_r by lia. reflexivity. }
  assert (Hb : inject_Z (2 ^ 1024 - 2 ^ 970) == inject_Z (d * (2 ^ 2098 - 2 ^ 2044)) * c).
  { rewrite Hpow. clear Hpow. generalize (2 ^ 1024 - 2 ^ 970)%Z. intros R. unfold c. rewrite !inject_Z_mult. pose proof big_pos as Hbig.
    assert (~ inject_Z d == 0) by (change 0 with (inject_Z 0); rewrite inject_Z_injective; lia).
    assert (~ inject_Z big == 0) by (change 0 with (inject_Z 0); rewrite inject_Z_injective; lia). field. split; assumption. }
  rewrite Hb, scaled_lt. generalize (d * (2 ^ 2098 - 2 ^ 2044))%Z. intros R. lia.
Qed.
End Rational.

Lemma plain_rational q y : 0 <= q -> exists n d, plain q y = to_float n d /\ 0 < d /\ 0 <= n /\
  (inject_Z q * 10 ^ y == inject_Z n / (inject_Z d * inject_Z big))%Q.
Proof.
  intros Hq. unfold plain. pose proof big_pos as Hb.
  assert (~ (inject_Z big == 0)%Q) by (change 0%Q with (inject_Z 0); rewrite inject_Z_injective; lia).
  destruct (Z.leb_spec 0 y) as [Hy|Hy].
  - assert (Hp : 0 < 10 ^ y) by (apply Z.pow_pos_nonneg; lia).
    exists (q * 10 ^ y * big), 1. split; [done|]. split; [lia|]. split; [nia|].
    rewrite !inject_Z_mult, Zpower_Qpower by lia. change (inject_Z 10) with 10%Q. change (inject_Z 1) with 1%Q. field. done.
  - assert (Hp : 0 < 10 ^ (- y)) by (apply Z.pow_pos_nonneg; lia).
    exists (q * big), (10 ^ (- y)). split; [done|]. split; [lia|]. split; [nia|].
    assert (Hpi : (10 ^ y == / inject_Z (10 ^ (- y)))%Q).
    { rewrite Zpower_Qpower by lia. change (inject_Z 10) with 10%Q. rewrite <- Qpower_opp. by rewrite Z.opp_involutive. }
    rewrite Hpi, inject_Z_mult. assert (~ (inject_Z (10 ^ (- y)) == 0)%Q) by (change 0%Q with (inject_Z 0); rewrite inject_Z_injective; lia).
    field. done.
Qed.

Lemma nearest_wd v w f : (v == w)%Q -> nearest v f -> nearest w f.
Proof. intros He [Hok H]. split; [done|]. intros g Hg. specialize (H g Hg). setoid_rewrite He in H. exact H. Qed.
Lemma range_wd v w : (v == w)%Q -> float_range v -> float_range w.
Proof. unfold float_range. intros He H. by setoid_rewrite He in H. Qed.

(** ParseFloat on a literal. *)
Lemma parse_parts sign i f d e x v : In sign [""; "-"] -> number_int i -> number_frac f d -> number_exp e x ->
  (v == (if decide (sign = "-") then -1 else 1) * inject_Z (digits_value (i +:+ d)) * 10 ^ (x - Z.of_nat (slen d)))%Q ->
  Z.of_nat (slen (sign +:+ i +:+ f +:+ e)) <= 9000 \/ -10000 < x < 10000 ->
  (float_range v /\ exists g, parse_float (sign +:+ i +:+ f +:+ e) = Some g /\ nearest v g /\
    (f_neg g = true <-> exists r, sign +:+ i +:+ f +:+ e = String "-" r)) \/
  (~ float_range v /\ parse_float (sign +:+ i +:+ f +:+ e) = None).
Proof.
  intros Hs Hi Hf He Hv Hl.
  assert (Hid : digits i = true) by (destruct Hi as [->|[Hi _]]; [done|]; by apply decimal_digits_spec in Hi as [_ Hi]).
  assert (Hdd : digits d = true) by (destruct Hf as [[-> ->]|[Hd ->]]; [done|]; by apply decimal_digits_spec in Hd as [_ Hd]).
  assert (Hdl : (slen d <= slen f)%nat) by (destruct Hf as [[-> ->]|[Hd ->]]; cbn; lia).
  rewrite !slen_app in Hl. pose proof (digits_value_bound (i +:+ d) (proj2 (digits_app i d) (conj Hid Hdd))) as Hq. rewrite slen_app in Hq.
  set (q := digits_value (i +:+ d)) in *.
  assert (Hpf : parse_float (sign +:+ i +:+ f +:+ e) = match plain q (x - Z.of_nat (slen d)) with
    | Some (m, k) => Some {| f_neg := bool_decide (sign = "-"); f_mant := m; f_index := k |} | None => None end).
  { unfold parse_float. rewrite (decimal_read sign i f d e x) by done. fold q. destruct Hl as [Hl|Hx].
    - rewrite (exponent_cut q e x (Z.of_nat (slen d)) (Z.of_nat (slen i + slen d))) by (done || lia).
      by rewrite plain_spec by lia.
    - rewrite (proj1 (exponent_read e x He)) by lia. by rewrite plain_spec by lia. }
  destruct (plain_rational q (x - Z.of_nat (slen d)) ltac:(lia)) as (n & D & Hp & HD & Hn & Hr). rewrite Hp in Hpf.
  set (b := bool_decide (sign = "-")) in *.
  assert (Hv' : (v == (if b then -1 else 1) * (inject_Z q * 10 ^ (x - Z.of_nat (slen d))))%Q).
  { rewrite Hv. unfold b. destruct (decide (sign = "-")); [rewrite bool_decide_true by done|rewrite bool_decide_false by done]; ring. }
  pose proof (range_of n D _ HD Hr b Hn) as Hrange.
  destruct (to_float n D) as [[m k]|] eqn:E.
  - left. split; [apply (range_wd _ _ (Qeq_sym _ _ Hv')); by apply Hrange|].
    eexists. split; [exact Hpf|]. split; [apply (nearest_wd _ _ _ (Qeq_sym _ _ Hv')); by apply (nearest_of n D)|].
    cbn [f_neg]. unfold b. rewrite bool_decide_eq_true. split; [intros ->; eexists; reflexivity|].
    intros (r & Hr0). destruct Hs as [<-|[<-|[]]]; [|done]. exfalso.
    destruct (number_int_head i Hi) as (a & t & -> & Ha). rewrite app_nil_s, app_cons_s in Hr0. injection Hr0 as -> _. done.
  - right. split; [|done]. intros H. apply (range_wd _ _ Hv') in H. by apply Hrange in H.
Qed.
Lemma parse_nearest s v : number s v -> Z.of_nat (slen s) <= 9000 ->
  (float_range v /\ exists f, parse_float s = Some f /\ nearest v f /\ (f_neg f = true <-> exists r, s = String "-" r)) \/
  (~ float_range v /\ parse_float s = None).
Proof.
  intros (sign & i & f & d & e & x & Hs & Hi & Hf & He & -> & Hv) Hl.
  apply (parse_parts sign i f d e x v); try assumption. by left.
Qed.

(** What is written for a float64 is a number literal, and read back as the same float64. *)
Lemma written_parse s q x m i sign : In sign [""; "-"] -> written s q x -> plain q x = Some (m, i) ->
  reads_as (sign +:+ s) {| f_neg := bool_decide (sign = "-"); f_mant := m; f_index := i |} /\
  parse_float (sign +:+ s) = Some {| f_neg := bool_decide (sign = "-"); f_mant := m; f_index := i |}.
Proof.
  intros Hs (n & f & d & e & y & Hi & Hf & He & -> & Hy & Hp) Hm.
  assert (Hpf : parse_float (sign +:+ n +:+ f +:+ e) = Some {| f_neg := bool_decide (sign = "-"); f_mant := m; f_index := i |}).
  { unfold parse_float. rewrite (decimal_read sign n f d e y) by done.
    rewrite (proj1 (exponent_read e y He)) by lia. rewrite plain_spec, Hp, Hm; [done|].
    apply digits_value_bound. apply digits_app. split.
    + destruct Hi as [->|[Hi _]]; [done|]. by apply decimal_digits_spec in Hi as [_ Hi].
    + destruct Hf as [[-> ->]|[Hd ->]]; [done|]. by apply decimal_digits_spec in Hd as [_ Hd]. }
  split; [|done].
  destruct (parse_parts sign n f d e y _ Hs Hi Hf He (Qeq_refl _) (or_intror Hy)) as [(_ & g & Hg & Hn & Hsg)|[_ H]]; [|congruence].
  rewrite Hpf in Hg. injection Hg as <-. eexists. split; [|split; [exact Hn|exact Hsg]].
  exists sign, n, f, d, e, y. split; [done|]. split; [done|]. split; [done|]. split; [done|]. split; [done|]. reflexivity.
Qed.
Lemma format_read f : float_ok f -> reads_as (format_float f) f /\ parse_float (format_float f) = Some f.
Proof.
  destruct f as [neg m i]. intros (Hm & Hi & Hc). cbn [f_mant f_index] in *. unfold format_float. cbn [f_neg f_mant f_index].
  assert (Hsg : In (if neg then "-" else "") [""; "-"]) by (destruct neg; cbn; tauto).
  assert (Hsn : bool_decide ((if neg then "-" else "") = "-") = neg) by (by destruct neg).
  destruct (Z.eqb_spec m 0) as [->|Hm0].
  - assert (i = 0) as -> by (destruct Hc as [Hc|Hc]; [|done]; assert (0 < 2 ^ 52) by reflexivity; lia).
    destruct (written_parse "0" 0 0 0 0 (if neg then "-" else "") Hsg) as [H1 H2].
    + exists "0", "", "", "", 0. split; [by left|]. split; [by left|]. split; [by left|]. done.
    + apply plain_zero.
    + rewrite Hsn in H1, H2. split; assumption.
  - pose proof (shortest_plain m i ltac:(by split) ltac:(lia)) as H. destruct (shortest m i) as [q x]. destruct H as [Hp Hq].
    pose proof (plain_size q x m i Hq ltac:(lia) Hp) as Hsz.
    assert (Hw : written (if float_ltb m i 4722366482869645 1002 || negb (float_ltb m i 7629394531250000 1091) then fmt_e q x else fmt_f q x) q x).
    { destruct (_ || _); [by apply fmt_e_written|by apply fmt_f_written]. }
    destruct (written_parse _ q x m i (if neg then "-" else "") Hsg Hw Hp) as [H1 H2]. rewrite Hsn in H1, H2. split; assumption.
Qed.
