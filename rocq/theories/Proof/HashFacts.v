(** The words and constants of SHA-256. *)
From Verif.Model Require Import Sha256.
From Verif.Spec Require Import HashSpec.
From Verif.Proof Require Import StrFacts HsFacts.
From Coq Require Import ZifyBool ZifyNat ZifyN.
Local Open Scope N_scope.

Definition word (x : N) : Prop := x < 2 ^ 32.

(** ** Bits *)
Definition low_word (f : N -> bool) (n : nat) : N :=
  fold_left (fun x i => x + if f (N.of_nat i) then 2 ^ N.of_nat i else 0) (seq 0 n) 0.
Lemma low_word_S f n : low_word f (S n) = low_word f n + if f (N.of_nat n) then 2 ^ N.of_nat n else 0.
Proof. unfold low_word. rewrite seq_S, fold_left_app. reflexivity. Qed.
Lemma low_word_bits f n : low_word f n < 2 ^ N.of_nat n /\
  forall i, N.testbit (low_word f n) i = (i <? N.of_nat n) && f i.
Proof.
  induction n as [|n [IH1 IH2]].
  - split; [done|]. intros i. change (low_word f 0) with 0. rewrite N.bits_0. symmetry. apply andb_false_iff. left. lia.
  - rewrite low_word_S. assert (E : 2 ^ N.of_nat (S n) = 2 * 2 ^ N.of_nat n) by (rewrite <- N.pow_succ_r'; f_equal; lia).
    assert (Hp : 2 ^ N.of_nat n <> 0) by (apply N.pow_nonzero; lia).
    split; [rewrite E; destruct (f _); lia|]. intros i.
    destruct (N.lt_trichotomy i (N.of_nat n)) as [H|[->|H]].
    + rewrite <- (N.mod_pow2_bits_low _ (N.of_nat n)) by done.
      replace ((low_word f n + _) mod 2 ^ N.of_nat n) with (low_word f n).
      * rewrite IH2. f_equal. lia.
      * symmetry. destruct (f (N.of_nat n)).
        -- rewrite <- (N.mul_1_l (2 ^ N.of_nat n)) at 1. rewrite N.mod_add by done. by apply N.mod_small.
        -- rewrite N.add_0_r. by apply N.mod_small.
    + replace (N.of_nat n <? N.of_nat (S n)) with true by lia. cbn [andb].
      match goal with |- N.testbit ?x _ = _ => pose proof (N.div_pow2_bits x (N.of_nat n) 0) as E' end.
      rewrite N.add_0_l in E'. rewrite <- E'. clear E'.
      destruct (f (N.of_nat n)).
      * rewrite <- (N.mul_1_l (2 ^ N.of_nat n)) at 1. rewrite N.div_add by done. rewrite N.div_small by done. done.
      * rewrite N.add_0_r, N.div_small by done. done.
    + replace (i <? N.of_nat (S n)) with false by lia. cbn [andb].
      destruct (f (N.of_nat n)).
      * apply N.bits_above_log2. assert (low_word f n + 2 ^ N.of_nat n < 2 ^ i).
        { apply N.lt_le_trans with (2 ^ N.of_nat (S n)); [lia|]. apply N.pow_le_mono_r; lia. }
        destruct (N.eq_dec (low_word f n + 2 ^ N.of_nat n) 0) as [->|]; [cbn; lia|]. apply N.log2_lt_pow2; lia.
      * rewrite N.add_0_r, IH2. apply andb_false_iff. left. lia.
Qed.
Lemma word_of_low f : word_of f = low_word f 32.
Proof. unfold word_of, low_word. reflexivity. Qed.
Lemma word_of_bits f i : N.testbit (word_of f) i = (i <? 32) && f i.
Proof. rewrite word_of_low, (proj2 (low_word_bits f 32)). reflexivity. Qed.
Lemma word_of_word f : word (word_of f).
Proof. rewrite word_of_low. unfold word. change 32 with (N.of_nat 32). apply (proj1 (low_word_bits f 32)). Qed.
#[local] Opaque word_of.
Lemma word_bits x i : word x -> 32 <= i -> N.testbit x i = false.
Proof.
  unfold word. intros Hx Hi. destruct (N.eq_dec x 0) as [->|]; [apply N.bits_0|]. apply N.bits_above_log2.
  apply N.lt_le_trans with 32; [|done]. apply N.log2_lt_pow2; lia.
Qed.
Lemma word_by_bits x : (forall i, 32 <= i -> N.testbit x i = false) -> word x.
Proof.
  intros H. unfold word.
  assert (x = x mod 2 ^ 32) as ->; [|by apply N.mod_lt].
  apply N.bits_inj. intros i. destruct (N.lt_ge_cases i 32) as [Hi|Hi].
  - by rewrite N.mod_pow2_bits_low.
  - rewrite N.mod_pow2_bits_high by done. auto.
Qed.
Lemma word_eq x f : word x -> (forall i, i < 32 -> N.testbit x i = f i) -> x = word_of f.
Proof.
  intros Hx H. apply N.bits_inj. intros i. rewrite word_of_bits. destruct (N.ltb_spec i 32); cbn [andb].
  - auto.
  - by apply word_bits.
Qed.

Lemma w32_word x : word (w32 x).
Proof. unfold word. rewrite w32_mod. by apply N.mod_lt. Qed.
Lemma add32_plus x y : add32 x y = plus x y.
Proof. unfold add32, plus. by rewrite w32_mod. Qed.
Lemma plus_word x y : word (plus x y).
Proof. unfold plus, word. by apply N.mod_lt. Qed.
Lemma plus_assoc x y z : plus (plus x y) z = plus x (plus y z).
Proof. unfold plus. rewrite N.add_mod_idemp_l, N.add_mod_idemp_r by done. f_equal. lia. Qed.

Lemma lxor_word x y : word x -> word y -> word (N.lxor x y).
Proof. intros Hx Hy. apply word_by_bits. intros i Hi. by rewrite N.lxor_spec, !word_bits. Qed.
Lemma xor3_spec x y z : word x -> word y -> word z -> N.lxor (N.lxor x y) z = xor3 x y z.
Proof.
  intros Hx Hy Hz. apply word_eq; [by repeat apply lxor_word|]. intros i _. rewrite !N.lxor_spec.
  by destruct (N.testbit x i), (N.testbit y i), (N.testbit z i).
Qed.
Lemma w32_bits x i : N.testbit (w32 x) i = (i <? 32) && N.testbit x i.
Proof.
  rewrite w32_mod. change 4294967296 with (2 ^ 32). destruct (N.ltb_spec i 32); cbn [andb].
  - by apply N.mod_pow2_bits_low.
  - by apply N.mod_pow2_bits_high.
Qed.
Lemma rotr_spec n x : 0 < n < 32 -> word x -> rotr n x = ROTR n x.
Proof.
  intros Hn Hx. unfold rotr, ROTR.
  assert (Hb : forall i, N.testbit (N.lor (N.shiftr x n) (w32 (N.shiftl x (32 - n)))) i =
    N.testbit x (i + n) || (i <? 32) && N.testbit (N.shiftl x (32 - n)) i).
  { intros i. by rewrite N.lor_spec, w32_bits, N.shiftr_spec by lia. }
  apply word_eq.
  - apply word_by_bits. intros i Hi. rewrite Hb, (word_bits x) by (done || lia). replace (i <? 32) with false by lia. done.
  - intros i Hi. rewrite Hb. replace (i <? 32) with true by lia. cbn [andb].
    destruct (N.lt_ge_cases (i + n) 32) as [H|H].
    + rewrite (N.mod_small (i + n)) by done. rewrite N.shiftl_spec_low by lia. apply orb_false_r.
    + rewrite (word_bits x (i + n)) by done. cbn [orb]. rewrite N.shiftl_spec_high' by lia. f_equal.
      replace (i + n) with ((i + n - 32) + 1 * 32) at 1 by lia. rewrite N.mod_add by done.
      rewrite N.mod_small by lia. lia.
Qed.
Lemma rotr_word n x : 0 < n < 32 -> word x -> word (rotr n x).
Proof. intros. rewrite rotr_spec by done. apply word_of_word. Qed.
Lemma shr_spec n x : shr n x = SHR n x.
Proof. unfold shr, SHR. apply N.shiftr_div_pow2. Qed.
Lemma shr_word n x : word x -> word (shr n x).
Proof.
  intros Hx. rewrite shr_spec. unfold SHR, word in *. apply N.le_lt_trans with x; [|done].
  apply N.div_le_upper_bound; [apply N.pow_nonzero; lia|].
  assert (2 ^ n <> 0) by (apply N.pow_nonzero; lia). nia.
Qed.
Lemma ROTR_word n x : word (ROTR n x).
Proof. apply word_of_word. Qed.

Lemma bsig0_spec x : word x -> bsig0 x = Sigma0 x.
Proof. intros Hx. unfold bsig0, Sigma0. rewrite !rotr_spec by (done || lia). apply xor3_spec; apply ROTR_word. Qed.
Lemma bsig1_spec x : word x -> bsig1 x = Sigma1 x.
Proof. intros Hx. unfold bsig1, Sigma1. rewrite !rotr_spec by (done || lia). apply xor3_spec; apply ROTR_word. Qed.
Lemma ssig0_spec x : word x -> ssig0 x = sigma0 x.
Proof.
  intros Hx. unfold ssig0, sigma0. pose proof (shr_word 3 x Hx). rewrite !rotr_spec by (done || lia). rewrite shr_spec in *.
  apply xor3_spec; try apply ROTR_word. done.
Qed.
Lemma ssig1_spec x : word x -> ssig1 x = sigma1 x.
Proof.
  intros Hx. unfold ssig1, sigma1. pose proof (shr_word 10 x Hx). rewrite !rotr_spec by (done || lia). rewrite shr_spec in *.
  apply xor3_spec; try apply ROTR_word. done.
Qed.
Lemma ones_bits i : N.testbit 4294967295 i = (i <? 32).
Proof.
  change 4294967295 with (N.ones 32). destruct (N.ltb_spec i 32).
  - by apply N.ones_spec_low.
  - by apply N.ones_spec_high.
Qed.
Lemma ch_spec x y z : word x -> word y -> word z -> ch x y z = Ch x y z.
Proof.
  intros Hx Hy Hz. unfold ch, Ch, not32. apply word_eq.
  - apply word_by_bits. intros i Hi. rewrite N.lxor_spec, !N.land_spec, N.lxor_spec, (word_bits x i), (word_bits y i), (word_bits z i) by done. by destruct (N.testbit _ i).
  - intros i Hi. rewrite N.lxor_spec, !N.land_spec, N.lxor_spec, ones_bits. replace (i <? 32) with true by lia.
    by destruct (N.testbit x i), (N.testbit y i), (N.testbit z i).
Qed.
Lemma maj_spec x y z : word x -> word y -> word z -> maj x y z = Maj x y z.
Proof.
  intros Hx Hy Hz. unfold maj, Maj. apply word_eq.
  - apply word_by_bits. intros i Hi. by rewrite !N.lxor_spec, !N.land_spec, (word_bits x i), (word_bits y i), (word_bits z i) by done.
  - intros i Hi. rewrite !N.lxor_spec, !N.land_spec.
    by destruct (N.testbit x i), (N.testbit y i), (N.testbit z i).
Qed.

(** ** Primes *)
Definition prime_b (p : nat) : bool := (1 <? p)%nat && forallb (fun d => negb (p mod d =? 0)%nat) (seq 2 (p - 2)).
Lemma prime_b_spec p : prime_b p = true <-> prime p.
Proof.
  unfold prime_b, prime. rewrite andb_true_iff, forallb_forall, Nat.ltb_lt. split; intros [H1 H]; split; try done.
  - intros d Hd. assert (0 < d <= p)%nat.
    { destruct Hd as [k Hk]. destruct d; [lia|]. split; [lia|]. destruct k; nia. }
    destruct (decide (d = 1 \/ d = p)%nat) as [|Hn]; [done|]. specialize (H d).
    rewrite in_seq in H. apply Nat.mod_divide in Hd; [|lia]. rewrite Hd in H. cbn in H. discriminate H; lia.
  - intros d Hd%in_seq. apply negb_true_iff, Nat.eqb_neq. intros Hm. apply Nat.mod_divide in Hm; [|lia]. destruct (H d Hm); lia.
Qed.
Definition primes_below (p : nat) : list nat := List.filter prime_b (seq 0 p).
Lemma nth_prime_b n p : prime_b p = true -> length (primes_below p) = n -> nth_prime n p.
Proof.
  intros Hp Hl. split; [by apply prime_b_spec|]. exists (primes_below p). split; [apply List.NoDup_filter, seq_NoDup|].
  split; [done|]. intros q. unfold primes_below. rewrite filter_In, in_seq, prime_b_spec. intuition lia.
Qed.
Lemma nth_prime_unique n p q : nth_prime n p -> nth_prime n q -> p = q.
Proof.
  intros [Hp (l & Hl & Hn & Hin)] [Hq (l' & Hl' & Hn' & Hin')].
  destruct (Nat.lt_trichotomy p q) as [H|[H|H]]; [|done|]; exfalso.
  - assert (length (p :: l) <= length l')%nat; [|cbn in *; lia]. apply NoDup_incl_length.
    + constructor; [|done]. rewrite Hin. lia.
    + intros x [<-|Hx]; [by apply Hin'|]. apply Hin in Hx. apply Hin'. split; [apply Hx|lia].
  - assert (length (q :: l') <= length l)%nat; [|cbn in *; lia]. apply NoDup_incl_length.
    + constructor; [|done]. rewrite Hin'. lia.
    + intros x [<-|Hx]; [by apply Hin|]. apply Hin' in Hx. apply Hin. split; [apply Hx|lia].
Qed.
Lemma root_unique e x r r' : r ^ e <= x < (r + 1) ^ e -> r' ^ e <= x < (r' + 1) ^ e -> r = r'.
Proof.
  intros [H1 H2] [H3 H4]. destruct (N.lt_trichotomy r r') as [H|[H|H]]; [|done|]; exfalso.
  - assert ((r + 1) ^ e <= r' ^ e) by (apply N.pow_le_mono_l; lia). lia.
  - assert ((r' + 1) ^ e <= r ^ e) by (apply N.pow_le_mono_l; lia). lia.
Qed.
Lemma constant_unique t k k' : constant t k -> constant t k' -> k = k'.
Proof.
  intros (p & Hp & r & Hr & ->) (p' & Hp' & r' & Hr' & ->). assert (p = p') as <- by (by apply (nth_prime_unique t)).
  by rewrite (root_unique 3 _ r r' Hr Hr').
Qed.
Lemma initial_unique t k k' : initial t k -> initial t k' -> k = k'.
Proof.
  intros (p & Hp & r & Hr & ->) (p' & Hp' & r' & Hr' & ->). assert (p = p') as <- by (by apply (nth_prime_unique t)).
  by rewrite (root_unique 2 _ r r' Hr Hr').
Qed.

Definition small_primes : list nat :=
  [2; 3; 5; 7; 11; 13; 17; 19; 23; 29; 31; 37; 41; 43; 47; 53; 59; 61; 67; 71; 73; 79; 83; 89; 97; 101; 103;
  107; 109; 113; 127; 131; 137; 139; 149; 151; 157; 163; 167; 173; 179; 181; 191; 193; 197; 199; 211; 223;
  227; 229; 233; 239; 241; 251; 257; 263; 269; 271; 277; 281; 283; 293; 307; 311]%nat.
Lemma small_primes_ok : primes_below 312 = small_primes.
Proof. vm_compute. reflexivity. Qed.
Lemma filter_none {A} (f : A -> bool) l : (forall x, In x l -> f x = false) -> List.filter f l = [].
Proof. induction l as [|x l IH]; [done|]. intros H. cbn. rewrite (H x) by (by left). apply IH. intros y Hy. apply H. by right. Qed.
Lemma primes_below_in n p : In p (primes_below n) -> prime_b p = true /\ primes_below p = List.filter (fun q => q <? p)%nat (primes_below n).
Proof.
  intros Hp. unfold primes_below in Hp. apply filter_In in Hp as [Hp%in_seq Hb]. split; [done|].
  unfold primes_below. replace n with (p + (n - p))%nat by lia. rewrite seq_app, !List.filter_app.
  rewrite (filter_none _ (List.filter prime_b (seq (0 + p) _))), app_nil_r.
  - assert (H : forall x, In x (seq 0 p) -> (x <? p)%nat = true) by (intros x Hx%in_seq; apply Nat.ltb_lt; lia).
    revert H. generalize (seq 0 p) as l. induction l as [|x l IH]; [done|]. intros H. cbn [List.filter].
    destruct (prime_b x) eqn:E; cbn [List.filter]; [rewrite (H x) by (by left); f_equal|]; apply IH; intros y Hy; apply H; by right.
  - intros x [Hx _]%filter_In. apply in_seq in Hx. apply Nat.ltb_ge. lia.
Qed.
Lemma primes_below_small p : In p small_primes -> prime_b p = true /\ primes_below p = List.filter (fun q => q <? p)%nat small_primes.
Proof. generalize (primes_below_in 312 p). generalize small_primes_ok. generalize (primes_below 312). intros l -> H. exact H. Qed.

(** The constants in the code are right. *)
Definition root_b (e : N) (p : nat) (k : N) (q : N) : bool :=
  let r := q * 2 ^ 32 + k in (r ^ e <=? N.of_nat p * 2 ^ (32 * e)) && (N.of_nat p * 2 ^ (32 * e) <? (r + 1) ^ e).
Definition constant_b (e : N) (t : nat) (p : nat) (k : N) : bool :=
  existsb (Nat.eqb p) small_primes && (length (List.filter (fun q => q <? p)%nat small_primes) =? t)%nat && (k <? 2 ^ 32) && existsb (root_b e p k) [1; 2; 3; 4; 5; 6].
Lemma root_b_spec e p k q : k < 2 ^ 32 -> root_b e p k q = true ->
  exists r, r ^ e <= N.of_nat p * 2 ^ (32 * e) < (r + 1) ^ e /\ k = r mod 2 ^ 32.
Proof.
  intros Hk H. unfold root_b in H. apply andb_true_iff in H as [H1 H2]. exists (q * 2 ^ 32 + k).
  split; [split; [by apply N.leb_le|by apply N.ltb_lt]|]. rewrite N.add_comm, N.mod_add by done. symmetry. by apply N.mod_small.
Qed.
Lemma constant_b_root e t p k : constant_b e t p k = true ->
  nth_prime t p /\ exists r, r ^ e <= N.of_nat p * 2 ^ (32 * e) < (r + 1) ^ e /\ k = r mod 2 ^ 32.
Proof.
  unfold constant_b. intros H. apply andb_true_iff in H as [H H4]. apply andb_true_iff in H as [H H3].
  apply andb_true_iff in H as [H1 H2]. apply Nat.eqb_eq in H2. apply N.ltb_lt in H3.
  apply existsb_exists in H1 as (p' & Hp & <-%Nat.eqb_eq). destruct (primes_below_small p Hp) as [Hb Hl].
  split; [apply nth_prime_b; [done|by rewrite Hl]|].
  apply existsb_exists in H4 as (q & _ & H4). by apply (root_b_spec e p k q).
Qed.
Definition prime_at (t : nat) : nat := nth t small_primes 0%nat.
Lemma constants_ok : forallb (fun t => constant_b 3 t (prime_at t) (nth t k256 0)) (seq 0 64) = true.
Proof. vm_compute. reflexivity. Qed.
Lemma constant_k256 t : (t < 64)%nat -> constant t (nth t k256 0).
Proof.
  intros Ht. pose proof (proj1 (forallb_forall _ _) constants_ok t) as H. specialize (H (proj2 (in_seq _ _ _) (conj (Nat.le_0_l t) Ht))).
  apply constant_b_root in H as [H1 H2]. exists (prime_at t). split; [exact H1|exact H2].
Qed.
Lemma initial_ok : forallb (fun x => constant_b 2 (fst x) (prime_at (fst x)) (snd x))
  [(0%nat, ha h0); (1%nat, hb h0); (2%nat, hc h0); (3%nat, hd h0); (4%nat, he h0); (5%nat, hf h0); (6%nat, hg h0); (7%nat, hh h0)] = true.
Proof. vm_compute. reflexivity. Qed.
Definition vars (h : hstate) : variables := Vars (ha h) (hb h) (hc h) (hd h) (he h) (hf h) (hg h) (hh h).
Lemma initial_h0 : initial_variables (vars h0).
Proof.
  pose proof (proj1 (forallb_forall _ _) initial_ok) as H.
  assert (Hi : forall t k, In (t, k) [(0%nat, ha h0); (1%nat, hb h0); (2%nat, hc h0); (3%nat, hd h0); (4%nat, he h0); (5%nat, hf h0); (6%nat, hg h0); (7%nat, hh h0)] -> initial t k).
  { intros t k Hin. apply H in Hin. cbn [fst snd] in Hin. apply constant_b_root in Hin as [H1 H2]. exists (prime_at t). split; [exact H1|exact H2]. }
  clear H. unfold initial_variables. unfold vars at 1 2 3 4 5 6 7 8. cbn [va vb vc vd ve vf vg vh].
  split_and!; apply Hi; clear Hi; cbn [In]; tauto.
Qed.
Lemma initial_variables_unique H H' : initial_variables H -> initial_variables H' -> H = H'.
Proof.
  destruct H, H'. unfold initial_variables. cbn. intros (? & ? & ? & ? & ? & ? & ? & ?) (? & ? & ? & ? & ? & ? & ? & ?).
  f_equal; by eapply initial_unique.
Qed.
