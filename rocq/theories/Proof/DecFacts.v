(** Decimal numbers: itoa, number literals, ParseInt. *)
From Verif.Model Require Import GoStr Json.
From Verif.Proof Require Import StrFacts.
From Coq Require Import ZifyBool ZifyNat ZifyN.
Ltac Zify.zify_post_hook ::= Z.div_mod_to_equations.

Definition digits (s : string) : bool := all_bytes is_digit s.

Lemma digit_char_digit n : (n < 10)%N -> is_digit (digit_char n) = true.
Proof. refine (N_forall (fun n => is_digit (digit_char n)) 10 _ n). vm_compute. reflexivity. Qed.
Lemma digit_char_val n : (n < 10)%N -> (ord (digit_char n) - 48 = n)%N.
Proof. intros H. unfold digit_char. rewrite ord_chr by lia. lia. Qed.

Lemma dec_value_app s t acc : digits s = true ->
  dec_value (s +:+ t) acc = match dec_value s acc with Some v => dec_value t v | None => None end.
Proof.
  revert acc. induction s as [|a s IH]; intros acc; [done|]. rewrite app_cons_s. cbn.
  unfold digits in *. cbn. rewrite andb_true_iff. intros [-> H]. by apply IH.
Qed.

(** Value of a digit string with an accumulated suffix. *)
Lemma dec_fuel_spec fuel n acc : (n < 2 ^ N.of_nat fuel)%N -> (0 < fuel)%nat ->
  exists p, dec_fuel fuel n acc = p +:+ acc /\ digits p = true /\ p <> "" /\
    (forall v, exists k, (forall w, dec_value (p +:+ w) v = dec_value w (v * 10 ^ k + n))%N) /\
    (n <> 0 -> exists d r, p = String d r /\ d <> "0"%char)%N.
Proof.
  revert n acc. induction fuel as [|f IH]; intros n acc Hn Hf; [lia|]. cbn [dec_fuel].
  assert (Hm : (n mod 10 < 10)%N) by (apply N.mod_lt; lia).
  destruct (N.ltb_spec n 10) as [Hlt|Hge].
  - exists (str1 (digit_char (n mod 10))). split; [done|]. split; [|split; [done|split]].
    + unfold digits. cbn. by rewrite digit_char_digit.
    + intros v. exists 1%N. intros w. change (str1 ?a +:+ w) with (String a w). cbn [dec_value].
      rewrite digit_char_digit, digit_char_val by done.
      rewrite N.mod_small by done. f_equal; lia.
    + intros Hn0. eexists _, _. split; [done|]. rewrite N.mod_small by done.
      intros H. apply (f_equal ord) in H. unfold digit_char in H. rewrite ord_chr in H by lia.
      change (ord "0") with 48%N in H. lia.
  - assert (Hf0 : (0 < f)%nat) by (destruct f; [cbn in Hn; lia|lia]).
    destruct (IH (n / 10)%N (String (digit_char (n mod 10)) acc)) as (p & Heq & Hd & Hne & Hv & H0).
    { replace (N.of_nat (S f)) with (N.of_nat f + 1)%N in Hn by lia.
      rewrite N.pow_add_r, N.pow_1_r in Hn.
      apply N.div_lt_upper_bound; [lia|]. lia. }
    { done. }
    exists (p +:+ str1 (digit_char (n mod 10))). rewrite Heq. split; [by rewrite app_assoc_s|].
    split; [|split; [|split]].
    + unfold digits in *. rewrite all_bytes_app, Hd. cbn. by rewrite digit_char_digit.
    + destruct p; done.
    + intros v. destruct (Hv v) as (k & Hk). exists (k + 1)%N. intros w.
      rewrite app_assoc_s, Hk. change (str1 ?a +:+ w) with (String a w). cbn [dec_value].
      rewrite digit_char_digit, digit_char_val by done. f_equal.
      rewrite N.pow_add_r, N.pow_1_r. pose proof (N.div_mod n 10). lia.
    + intros _. destruct H0 as (d & r & -> & Hd0); [lia|]. eexists _, _. rewrite app_cons_s. done.
Qed.

Lemma dec_of_N_spec n :
  digits (dec_of_N n) = true /\ dec_of_N n <> "" /\ dec_value (dec_of_N n) 0 = Some n /\
  (n <> 0 -> exists d r, dec_of_N n = String d r /\ d <> "0"%char)%N.
Proof.
  unfold dec_of_N.
  destruct (dec_fuel_spec (S (N.to_nat (N.log2 n))) n "") as (p & Heq & Hd & Hne & Hv & H0); [|lia|].
  { replace (N.of_nat (S (N.to_nat (N.log2 n)))) with (N.succ (N.log2 n)) by lia.
    destruct (N.eq_dec n 0) as [->|]; [done|]. apply N.log2_spec. lia. }
  rewrite app_nil_r_s in Heq. rewrite Heq. split; [done|]. split; [done|]. split; [|done].
  destruct (Hv 0%N) as (k & Hk). specialize (Hk ""). rewrite app_nil_r_s in Hk. rewrite Hk.
  cbn. f_equal; lia.
Qed.

(** What may follow a number literal. *)
Definition num_end (s : string) : bool :=
  match s with
  | "" => true
  | String a _ => negb (is_digit a || Ascii.eqb a "."%char || Ascii.eqb a "e"%char
                        || Ascii.eqb a "E"%char)
  end.

Lemma take_digits_app d rest : digits d = true -> num_end rest = true ->
  take_digits (d +:+ rest) = (d, rest).
Proof.
  intros Hd Hr. induction d as [|a d IH].
  - rewrite app_nil_s. destruct rest as [|b r]; [done|]. cbn in *.
    rewrite !negb_orb, !andb_true_iff in Hr. destruct Hr as [[[Hr _] _] _].
    apply negb_true_iff in Hr. by rewrite Hr.
  - rewrite app_cons_s. cbn. unfold digits in *. cbn in Hd. apply andb_true_iff in Hd as [Ha Hd].
    rewrite Ha, IH by done. done.
Qed.

Lemma num_end_frac rest : num_end rest = true -> scan_frac rest = Some ("", rest).
Proof.
  destruct rest as [|a r]; [done|]. cbn. rewrite !negb_orb, !andb_true_iff.
  intros [[[_ H] _] _]. apply negb_true_iff in H. by rewrite H.
Qed.
Lemma num_end_exp rest : num_end rest = true -> scan_exp rest = Some ("", rest).
Proof.
  destruct rest as [|a r]; [done|]. cbn. rewrite !negb_orb, !andb_true_iff.
  intros [[_ H1] H2]. apply negb_true_iff in H1, H2. by rewrite H1, H2.
Qed.

Lemma scan_int_dec n rest : num_end rest = true ->
  scan_int (dec_of_N n +:+ rest) = Some (dec_of_N n, rest).
Proof.
  intros Hr. destruct (dec_of_N_spec n) as (Hd & Hne & _ & H0).
  destruct (N.eq_dec n 0) as [->|Hn0].
  - reflexivity.
  - destruct (H0 Hn0) as (d & r & Heq & Hd0). rewrite Heq in *. rewrite app_cons_s. cbn.
    apply Ascii.eqb_neq in Hd0. rewrite Hd0. unfold digits in Hd. cbn in Hd.
    apply andb_true_iff in Hd as [Ha Hd]. rewrite Ha, take_digits_app by done. done.
Qed.

Lemma digit_not_minus s r : digits s = true -> s <> "" ->
  exists a t, s +:+ r = String a t /\ is_digit a = true /\ Ascii.eqb a "-" = false.
Proof.
  destruct s as [|a s]; [done|]. unfold digits. cbn. rewrite andb_true_iff. intros [Ha _] _.
  rewrite app_cons_s. exists a, (s +:+ r). split; [done|]. split; [done|].
  destruct (Ascii.eqb_spec a "-") as [->|]; [discriminate|done].
Qed.

Lemma itoa_cases z : (exists n, itoa z = dec_of_N n /\ z = Z.of_N n) \/
  (exists n, itoa z = String "-" (dec_of_N n) /\ z = (- Z.of_N n)%Z /\ (0 < n)%N).
Proof.
  destruct z as [|p|p].
  - left. by exists 0%N.
  - left. by exists (Npos p).
  - right. exists (Npos p). done.
Qed.

Lemma scan_number_itoa z rest : num_end rest = true ->
  scan_number (itoa z +:+ rest) = Some (itoa z, rest).
Proof.
  intros Hr. destruct (itoa_cases z) as [(n & -> & _)|(n & -> & _ & _)].
  - destruct (dec_of_N_spec n) as (Hd & Hne & _).
    destruct (digit_not_minus _ rest Hd Hne) as (a & t & Heq & _ & Hm).
    unfold scan_number. rewrite Heq at 1. rewrite Hm. rewrite Heq at 1.
    rewrite <- Heq, scan_int_dec, num_end_frac, num_end_exp by done.
    by rewrite app_nil_s, !app_nil_r_s.
  - rewrite app_cons_s. unfold scan_number. rewrite Ascii.eqb_refl.
    rewrite scan_int_dec, num_end_frac, num_end_exp by done.
    by rewrite !app_nil_r_s.
Qed.

Definition int64_min : Z := -9223372036854775808.
Definition int64_max : Z := 9223372036854775807.

Lemma parse_int64_itoa z : (int64_min <= z <= int64_max)%Z -> parse_int64 (itoa z) = Some z.
Proof.
  intros Hz. unfold int64_min, int64_max in Hz. unfold parse_int64.
  destruct (itoa_cases z) as [(n & -> & ->)|(n & -> & -> & Hn)].
  - destruct (dec_of_N_spec n) as (Hd & Hne & Hv & _).
    destruct (digit_not_minus _ "" Hd Hne) as (a & t & Heq & _ & Hm). rewrite app_nil_r_s in Heq.
    rewrite Heq at 1. rewrite Hm, Hv. cbn [option_map].
    replace (_ && _) with true by lia. done.
  - destruct (dec_of_N_spec n) as (Hd & Hne & Hv & _). rewrite Ascii.eqb_refl, Hv. cbn [option_map].
    replace (_ && _) with true by lia. done.
Qed.

Lemma itoa_inj z w : (int64_min <= z <= int64_max)%Z -> (int64_min <= w <= int64_max)%Z ->
  itoa z = itoa w -> z = w.
Proof.
  intros Hz Hw H. apply parse_int64_itoa in Hz, Hw. congruence.
Qed.

(** First character of a number literal. *)
Lemma itoa_head z : exists a r, itoa z = String a r /\ (is_digit a = true \/ a = "-"%char).
Proof.
  destruct (itoa_cases z) as [(n & -> & ->)|(n & -> & -> & Hn)].
  - destruct (dec_of_N_spec n) as (Hd & Hne & _).
    destruct (digit_not_minus _ "" Hd Hne) as (a & t & Heq & Ha & _). rewrite app_nil_r_s in Heq.
    exists a, t. auto.
  - eauto.
Qed.
