(** C86: the model of crypto/sha256 and crypto/hmac is SHA-256 and HMAC. *)
From Verif.Model Require Import Sha256 Hs256.
From Verif.Spec Require Import TokenSpec HashSpec.
From Verif.Proof Require Import StrFacts HsFacts TokenProofs HashFacts.
From Coq Require Import ZifyBool ZifyNat ZifyN.
Local Open Scope N_scope.

#[local] Opaque word_of.
#[local] Transparent hmac_sha256.

Definition byte (x : N) : Prop := x < 256.

(** ** Schedule *)
Lemma words_nth : forall M t, (4 * t + 4 <= length M)%nat -> nth t (words_of_bytes M) 0 = block_word M t.
Proof.
  intros M t. revert M. induction t as [|t IH]; intros M H; destruct M as [|a [|b [|c [|d M]]]]; cbn [length] in H; try lia.
  - unfold block_word. cbn [words_of_bytes nth Nat.mul Nat.add].
    change (2 ^ 24) with (256 * 256 * 256). change (2 ^ 16) with (256 * 256). change (2 ^ 8) with 256. lia.
  - cbn [words_of_bytes nth]. rewrite IH by lia. unfold block_word.
    replace (4 * S t)%nat with (4 + 4 * t)%nat by lia. cbn [Nat.add nth]. done.
Qed.
Lemma words_length : forall n M, length M = (4 * n)%nat -> length (words_of_bytes M) = n.
Proof.
  induction n as [|n IH]; intros M H; destruct M as [|a [|b [|c [|d M]]]]; cbn [length] in H; try lia; [done|].
  cbn [words_of_bytes length]. rewrite IH by lia. done.
Qed.
Lemma block_word_word M t : Forall byte M -> word (block_word M t).
Proof.
  intros HM. assert (Hb : forall i, byte (nth i M 0)).
  { intros i. destruct (nth_in_or_default i M 0) as [Hi| ->]; [|unfold byte; lia].
    by apply (proj1 (List.Forall_forall _ _) HM). }
  unfold block_word, word. cbv zeta. pose proof (Hb (4 * t + 0)%nat). pose proof (Hb (4 * t + 1)%nat).
  pose proof (Hb (4 * t + 2)%nat). pose proof (Hb (4 * t + 3)%nat). unfold byte in *.
  change (2 ^ 24) with 16777216. change (2 ^ 16) with 65536. change (2 ^ 8) with 256. change (2 ^ 32) with 4294967296. lia.
Qed.

Definition more (w : nat -> N) : N := add32 (add32 (ssig1 (w 2%nat)) (w 7%nat)) (add32 (ssig0 (w 15%nat)) (w 16%nat)).
Lemma extend_S n rw : extend (S n) rw = extend n (more (fun i => nth (i - 1) rw 0) :: rw).
Proof. reflexivity. Qed.
Lemma extend_spec : forall n rw, (16 <= length rw)%nat ->
  let L := rev (extend n rw) in
  length L = (n + length rw)%nat /\
  (forall t, (t < length rw)%nat -> nth t L 0 = nth t (rev rw) 0) /\
  (forall t, (length rw <= t < length L)%nat -> nth t L 0 = more (fun i => nth (t - i) L 0)).
Proof.
  induction n as [|n IH]; intros rw Hl; cbv zeta.
  - cbn [extend]. rewrite rev_length. split; [done|]. split; [done|]. intros t Ht. lia.
  - rewrite extend_S. set (x := more _). destruct (IH (x :: rw)) as (H1 & H2 & H3); [cbn; lia|].
    set (L := rev (extend n (x :: rw))) in *. cbn [length] in *.
    assert (Hlow : forall t, (t < length rw)%nat -> nth t L 0 = nth t (rev rw) 0).
    { intros t Ht. rewrite H2 by lia. cbn [rev]. rewrite app_nth1 by (rewrite rev_length; lia). done. }
    split; [lia|]. split; [done|]. intros t Ht. destruct (decide (t = length rw)) as [->|Hne]; [|apply H3; lia].
    rewrite H2 by lia. cbn [rev]. rewrite app_nth2 by (rewrite rev_length; lia). rewrite rev_length, Nat.sub_diag. cbn [nth].
    assert (Hb : forall i, (1 <= i <= 16)%nat -> nth (length rw - i) L 0 = nth (i - 1) rw 0).
    { intros i Hi. rewrite Hlow by lia. rewrite rev_nth by lia. f_equal. lia. }
    unfold x, more. rewrite !Hb by lia. done.
Qed.

Lemma more_spec (w : nat -> N) : word (w 2%nat) -> word (w 15%nat) ->
  more w = plus (plus (sigma1 (w 2%nat)) (w 7%nat)) (plus (sigma0 (w 15%nat)) (w 16%nat)).
Proof. intros H1 H2. unfold more. by rewrite !add32_plus, ssig1_spec, ssig0_spec. Qed.
Lemma more_word w : word (more w).
Proof. unfold more. rewrite add32_plus. apply plus_word. Qed.

#[local] Notation schedule_of n M := (rev (extend n (rev (words_of_bytes M)))).
Lemma schedule_length n M : n = 48%nat -> length M = 64%nat -> length (schedule_of n M) = 64%nat.
Proof.
  intros Hn HM. pose proof (words_length 16 M HM) as Hw.
  destruct (extend_spec n (rev (words_of_bytes M))) as (H & _); [rewrite rev_length; lia|].
  rewrite H, rev_length, Hw, Hn. reflexivity.
Qed.
Lemma schedule_ok n M : n = 48%nat -> length M = 64%nat -> Forall byte M ->
  schedule M (fun t => nth t (schedule_of n M) 0) /\ forall t, word (nth t (schedule_of n M) 0).
Proof.
  intros Hn HM Hb. pose proof (words_length 16 M HM) as Hw. pose proof (schedule_length n M Hn HM) as Hl. clear Hn.
  destruct (extend_spec n (rev (words_of_bytes M))) as (_ & H2 & H3); [rewrite rev_length; lia|].
  rewrite rev_length, Hw, rev_involutive in H2. rewrite rev_length, Hw, Hl in H3.
  assert (Hlow : forall t, (t < 16)%nat -> nth t (schedule_of n M) 0 = block_word M t).
  { intros t Ht. rewrite H2 by done. apply words_nth. lia. }
  assert (Hword : forall t, word (nth t (schedule_of n M) 0)).
  { intros t. destruct (Nat.lt_ge_cases t 16) as [Ht|Ht]; [rewrite Hlow by done; by apply block_word_word|].
    destruct (Nat.lt_ge_cases t 64) as [Ht'|Ht']; [rewrite H3 by lia; apply more_word|].
    rewrite nth_overflow by lia. unfold word. lia. }
  split; [|done]. split; [done|]. intros t Ht. cbv beta. rewrite H3 by lia.
  apply (more_spec (fun i => nth (t - i) (schedule_of n M) 0)); apply Hword.
Qed.
Lemma schedule_unique M W W' : schedule M W -> schedule M W' -> forall t, (t < 64)%nat -> W t = W' t.
Proof.
  intros [H1 H2] [H1' H2'] t. induction t as [t IH] using lt_wf_ind. intros Ht.
  destruct (Nat.lt_ge_cases t 16) as [H|H]; [by rewrite H1, H1'|].
  rewrite H2, H2' by lia. rewrite !IH by lia. done.
Qed.

(** ** Rounds *)
Definition words_only (h : hstate) : Prop :=
  word (ha h) /\ word (hb h) /\ word (hc h) /\ word (hd h) /\ word (he h) /\ word (hf h) /\ word (hg h) /\ word (hh h).
Lemma round_spec h k w : words_only h -> vars (round h (k, w)) = next k w (vars h) /\ words_only (round h (k, w)).
Proof.
  intros (H1 & H2 & H3 & H4 & H5 & H6 & H7 & H8). unfold round, vars, next, words_only.
  cbn [ha hb hc hd he hf hg hh va vb vc vd ve vf vg vh fst snd].
  rewrite !add32_plus, bsig0_spec, bsig1_spec, ch_spec, maj_spec by done.
  rewrite <- !plus_assoc. split; [done|]. split_and!; try done; apply plus_word.
Qed.
Lemma rounds_spec : forall l h, words_only h ->
  words_only (fold_left round l h) /\
  exists v : nat -> variables, v 0%nat = vars h /\ v (length l) = vars (fold_left round l h) /\
    forall t, (t < length l)%nat -> v (t + 1)%nat = next (fst (nth t l (0, 0))) (snd (nth t l (0, 0))) (v t).
Proof.
  induction l as [|[k w] l IH]; intros h Hh.
  - split; [done|]. exists (fun _ => vars h). split; [done|]. split; [done|]. cbn. lia.
  - destruct (round_spec h k w Hh) as [Hr Hw]. destruct (IH _ Hw) as (Hf & v & H0 & H1 & H2). split; [done|].
    exists (fun t => match t with O => vars h | S t' => v t' end). split; [done|]. split; [done|].
    intros [|t] Ht; cbn [length] in Ht; cbn [Nat.add nth fst snd].
    + by rewrite H0.
    + apply H2. lia.
Qed.
Lemma compress_spec h M : words_only h -> length M = 64%nat -> Forall byte M ->
  hash_block M (vars h) (vars (compress h M)) /\ words_only (compress h M).
Proof.
  intros Hh HM Hb. split.
  - unfold compress. cbv zeta. remember 48%nat as n eqn:Hn in |- *.
    destruct (schedule_ok n M Hn HM Hb) as [Hs Hw]. pose proof (schedule_length n M Hn HM) as Hl.
    destruct (rounds_spec (combine k256 (schedule_of n M)) h Hh) as (Hf & v & H0 & H1 & H2).
    assert (Hc : length (combine k256 (schedule_of n M)) = 64%nat) by (rewrite combine_length, Hl; reflexivity).
    rewrite Hc in H1, H2.
    assert (Hnth : forall t, nth t (combine k256 (schedule_of n M)) (0, 0) = (nth t k256 0, nth t (schedule_of n M) 0)).
    { intros t. apply combine_nth. rewrite Hl. reflexivity. }
    exists (fun t => nth t k256 0), (fun t => nth t (schedule_of n M) 0), v.
    split; [intros t Ht; by apply constant_k256|]. split; [done|]. split; [done|].
    split; [intros t Ht; rewrite H2, Hnth by done; done|].
    rewrite H1. unfold added, vars. cbn [ha hb hc hd he hf hg hh va vb vc vd ve vf vg vh].
    by rewrite !add32_plus.
  - unfold compress, words_only. cbv zeta. cbn [ha hb hc hd he hf hg hh]. rewrite !add32_plus. split_and!; apply plus_word.
Qed.
Lemma hash_block_unique M H H1 H2 : hash_block M H H1 -> hash_block M H H2 -> H1 = H2.
Proof.
  intros (K & W & v & HK & HW & H0 & Hn & ->) (K' & W' & v' & HK' & HW' & H0' & Hn' & ->).
  assert (E : forall t, (t <= 64)%nat -> v t = v' t).
  { induction t as [|t IH]; intros Ht; [congruence|]. rewrite <- (Nat.add_1_r t), Hn, Hn' by lia.
    rewrite IH by lia. rewrite (constant_unique t (K t) (K' t)) by (first [apply HK | apply HK']; lia).
    by rewrite (schedule_unique M W W' HW HW' t) by lia. }
  by rewrite E.
Qed.
Lemma hash_blocks_unique l H H1 H2 : hash_blocks l H H1 -> hash_blocks l H H2 -> H1 = H2.
Proof.
  intros A. revert H2. induction A as [H|M r H H' H'' A1 A2 IH]; intros H2 B; inversion B; subst; [done|].
  apply IH. match goal with X : hash_block M H ?Y |- hash_blocks r H' H2 => by rewrite (hash_block_unique M H H' Y A1 X) end.
Qed.

(** ** Blocks *)
Lemma absorb_short : forall l h buf, (length buf + length l < 64)%nat -> fold_left absorb l (h, buf) = (h, rev l ++ buf)%list.
Proof.
  induction l as [|x l IH]; intros h buf H; [done|]. cbn [fold_left length] in *.
  unfold absorb at 2. cbn [fst snd]. replace (length (x :: buf) =? 64)%nat with false by (cbn [length]; lia).
  rewrite IH by (cbn [length]; lia). cbn [rev]. by rewrite <- app_assoc.
Qed.
Lemma absorb_block M h : length M = 64%nat -> fold_left absorb M (h, []) = (compress h M, []).
Proof.
  intros HM. destruct (exists_last (l := M)) as (l & x & ->); [by intros ->|].
  rewrite app_length in HM. cbn [length] in HM. rewrite fold_left_app, absorb_short by (cbn [length]; lia).
  cbn [fold_left]. unfold absorb. cbn [fst snd]. rewrite app_nil_r.
  replace (length (x :: rev l) =? 64)%nat with true by (cbn [length]; rewrite rev_length; lia).
  cbn [rev]. by rewrite rev_involutive.
Qed.
Lemma absorb_blocks : forall blocks h, Forall (fun M => length M = 64%nat) blocks ->
  fold_left absorb (concat blocks) (h, []) = (fold_left compress blocks h, []).
Proof.
  induction blocks as [|M r IH]; intros h HF; [done|]. inversion HF; subst. cbn [concat fold_left].
  rewrite fold_left_app, absorb_block by done. by apply IH.
Qed.
Lemma compress_blocks : forall blocks h, words_only h -> Forall (fun M => length M = 64%nat) blocks -> Forall byte (concat blocks) ->
  hash_blocks blocks (vars h) (vars (fold_left compress blocks h)).
Proof.
  induction blocks as [|M r IH]; intros h Hh HF Hb; [constructor|]. inversion HF; subst. cbn [concat] in Hb.
  apply List.Forall_app in Hb as [Hb1 Hb2]. destruct (compress_spec h M Hh) as [Hc1 Hc2]; [done..|].
  econstructor; [exact Hc1|]. by apply IH.
Qed.
Lemma split_blocks : forall n (p : list N), length p = (n * 64)%nat -> exists blocks, p = concat blocks /\ Forall (fun M => length M = 64%nat) blocks.
Proof.
  induction n as [|n IH]; intros p H.
  - exists []. destruct p; [by split|discriminate].
  - destruct (IH (skipn 64 p)) as (r & Hr & HF); [rewrite skipn_length; lia|]. exists (firstn 64 p :: r).
    split; [cbn [concat]; by rewrite <- Hr, firstn_skipn|]. constructor; [|done]. rewrite firstn_length. lia.
Qed.
Lemma blocks_unique : forall (b1 b2 : list (list N)), Forall (fun M => length M = 64%nat) b1 -> Forall (fun M => length M = 64%nat) b2 ->
  concat b1 = concat b2 -> b1 = b2.
Proof.
  induction b1 as [|M r IH]; intros [|M' r'] H1 H2 E; inversion H1; inversion H2; subst; cbn [concat] in E; [done|..].
  - apply (f_equal length) in E. rewrite app_length in E. cbn in E. lia.
  - apply (f_equal length) in E. rewrite app_length in E. cbn in E. lia.
  - apply app_inj_1 in E as [-> E]; [|congruence]. f_equal. by apply IH.
Qed.

(** ** Padding and digest *)
Lemma zeros_repeat n : zeros n = repeat 0 n.
Proof. induction n; cbn; [done|by f_equal]. Qed.
Lemma be4 w : be_bytes4 w = big_endian 4 w.
Proof.
  unfold be_bytes4. cbn [big_endian]. change (256 ^ N.of_nat 3) with 16777216. change (256 ^ N.of_nat 2) with 65536.
  change (256 ^ N.of_nat 1) with 256. change (256 ^ N.of_nat 0) with 1. by rewrite N.div_1_r.
Qed.
Lemma be8 x : (be_bytes4 (x / 4294967296 mod 4294967296) ++ be_bytes4 (x mod 4294967296))%list = big_endian 8 (x mod 2 ^ 64).
Proof.
  assert (E1 : x / 4294967296 mod 4294967296 = x mod 2 ^ 64 / 4294967296).
  { change (2 ^ 64) with (4294967296 * 4294967296). rewrite N.mod_mul_r by done.
    rewrite N.add_comm, N.mul_comm, N.div_add_l by done. rewrite (N.div_small (x mod _)) by (by apply N.mod_lt). lia. }
  assert (E2 : forall k, (k <= 3)%nat -> (x mod 4294967296 / 256 ^ N.of_nat k) mod 256 = (x mod 2 ^ 64 / 256 ^ N.of_nat k) mod 256).
  { intros k Hk. change 256 with (2 ^ 8) at 1 2 3 4. rewrite <- !N.pow_mul_r. rewrite <- !N.land_ones, <- !N.shiftr_div_pow2.
    change 4294967296 with (2 ^ 32). rewrite <- !N.land_ones. apply N.bits_inj. intros i.
    rewrite !N.land_spec, !N.shiftr_spec', !N.land_spec. destruct (N.lt_ge_cases i 8) as [Hi|Hi].
    - rewrite !(N.ones_spec_low _ i), !(N.ones_spec_low _ (i + _)) by lia. done.
    - rewrite !(N.ones_spec_high _ i) by lia. by rewrite !andb_false_r. }
  assert (E3 : forall y k, y / 4294967296 / 256 ^ N.of_nat k = y / 256 ^ N.of_nat (k + 4)).
  { intros y k. rewrite N.div_div by (done || (apply N.pow_nonzero; done)). f_equal.
    rewrite Nat2N.inj_add, N.pow_add_r, N.mul_comm. f_equal. }
  rewrite !be4, E1. cbn [big_endian app]. rewrite !E3, !E2 by lia. cbn [Nat.add]. reflexivity.
Qed.
Lemma big_endian_length n x : length (big_endian n x) = n.
Proof. induction n; cbn [big_endian length]; [done|by f_equal]. Qed.
Lemma big_endian_bytes n x : Forall byte (big_endian n x).
Proof. induction n; cbn [big_endian]; constructor; [unfold byte; by apply N.mod_lt|done]. Qed.

Lemma padding_ok m : padded m (m ++ padding (length m)) /\ Forall byte (padding (length m)).
Proof.
  unfold padding. cbv zeta. rewrite be8, zeros_repeat.
  set (z := if (length m mod 64 <? 56)%nat then (55 - length m mod 64)%nat else (119 - length m mod 64)%nat).
  assert (Hm : (length m mod 64 < 64)%nat) by (by apply Nat.mod_upper_bound).
  assert (Hd : length m = (64 * (length m / 64) + length m mod 64)%nat) by (by apply Nat.div_mod). split.
  - exists z. split; [|split; [done|]].
    + unfold z. destruct (Nat.ltb_spec (length m mod 64) 56); lia.
    + rewrite app_length. cbn [length]. rewrite app_length, repeat_length, big_endian_length.
      unfold z. destruct (Nat.ltb_spec (length m mod 64) 56).
      * exists (length m / 64 + 1)%nat. lia.
      * exists (length m / 64 + 2)%nat. lia.
  - constructor; [unfold byte; lia|]. apply List.Forall_app. split; [|apply big_endian_bytes].
    apply List.Forall_forall. intros x Hx. apply repeat_spec in Hx as ->. unfold byte. lia.
Qed.
Lemma padded_unique m p p' : padded m p -> padded m p' -> p = p'.
Proof.
  intros (k & Hk & -> & [a Ha]) (k' & Hk' & -> & [b Hb]). assert (k = k') as ->; [|done].
  rewrite app_length in Ha, Hb. cbn [length] in Ha, Hb. rewrite app_length, repeat_length, big_endian_length in Ha, Hb. lia.
Qed.

(** ** Hashes *)
Lemma sha256_bytes_spec m : Forall byte m -> is_sha256 m (sha256_bytes m).
Proof.
  intros Hm. destruct (padding_ok m) as [Hp Hb]. assert (Hp' := Hp). destruct Hp' as (k & _ & _ & [n Hn]).
  destruct (split_blocks n _ Hn) as (blocks & E & HF). rewrite E in Hp.
  assert (Hw : words_only h0) by (unfold words_only, word; cbn; lia).
  exists blocks, (vars h0), (vars (fold_left compress blocks h0)).
  split; [done|]. split; [done|]. split; [exact initial_h0|]. split.
  - apply compress_blocks; [done..|]. rewrite <- E. by apply List.Forall_app.
  - unfold sha256_bytes. rewrite E, absorb_blocks by done. cbn [fst]. cbv zeta. unfold digest.
    cbn [flat_map vars va vb vc vd ve vf vg vh]. by rewrite !be4, !app_nil_r.
Qed.
Lemma sha256_unique m d d' : is_sha256 m d -> is_sha256 m d' -> d = d'.
Proof.
  intros (b & H & H' & Hp & HF & Hi & Hh & ->) (b2 & H2 & H2' & Hp2 & HF2 & Hi2 & Hh2 & ->).
  assert (b = b2) as <- by (apply blocks_unique; [done..|by apply (padded_unique m)]).
  assert (H = H2) as <- by (by apply initial_variables_unique).
  by rewrite (hash_blocks_unique b H H' H2' Hh Hh2).
Qed.
Lemma sha256_bytes_byte m : Forall byte (sha256_bytes m).
Proof. unfold sha256_bytes. cbv zeta. rewrite !be4, !List.Forall_app. split_and!; apply big_endian_bytes. Qed.

Lemma lxor_byte x y : byte x -> byte y -> byte (N.lxor x y).
Proof.
  intros Hx Hy. unfold byte in *. change 256 with (2 ^ 8) in *.
  assert (Hz : forall i, 8 <= i -> N.testbit (N.lxor x y) i = false).
  { intros i Hi. rewrite N.lxor_spec. rewrite <- (N.mod_small x (2 ^ 8)), <- (N.mod_small y (2 ^ 8)) by done.
    by rewrite !N.mod_pow2_bits_high. }
  assert (N.lxor x y = N.lxor x y mod 2 ^ 8) as ->; [|by apply N.mod_lt].
  apply N.bits_inj. intros i. destruct (N.lt_ge_cases i 8) as [Hi|Hi].
  - by rewrite N.mod_pow2_bits_low.
  - rewrite N.mod_pow2_bits_high by done. auto.
Qed.
Lemma map_lxor c l : byte c -> Forall byte l -> Forall byte (map (N.lxor c) l).
Proof. intros Hc Hl. apply List.Forall_forall. intros x (y & <- & Hy)%in_map_iff. apply lxor_byte; [done|]. by apply (proj1 (List.Forall_forall _ _) Hl). Qed.
Lemma repeat_byte n : Forall byte (repeat 0 n).
Proof. apply List.Forall_forall. intros x Hx. apply repeat_spec in Hx as ->. unfold byte. lia. Qed.

Lemma hmac_bytes_spec key text : Forall byte key -> Forall byte text -> is_hmac key text (hmac_bytes key text).
Proof.
  intros Hk Ht. unfold hmac_bytes, hmac_key. cbv zeta. rewrite !zeros_repeat.
  set (k := if (64 <? length key)%nat then sha256_bytes key else key).
  assert (Hb : Forall byte (k ++ repeat 0 (64 - length k))).
  { apply List.Forall_app. split; [|apply repeat_byte]. unfold k. destruct (_ <? _)%nat; [apply sha256_bytes_byte|done]. }
  exists k, (sha256_bytes (map (N.lxor 0x36) (k ++ repeat 0 (64 - length k)) ++ text)). split.
  - unfold k. destruct (Nat.ltb_spec 64 (length key)); [right; split; [done|by apply sha256_bytes_spec]|by left].
  - cbv zeta. rewrite !(map_ext (fun b => N.lxor b 0x5c) (N.lxor 0x5c)), !(map_ext (fun b => N.lxor b 0x36) (N.lxor 0x36)) by (intros; apply N.lxor_comm).
    split; apply sha256_bytes_spec, List.Forall_app; (split; [apply map_lxor; [unfold byte; lia|done]|]); [done|apply sha256_bytes_byte].
Qed.
Lemma hmac_unique key text d d' : is_hmac key text d -> is_hmac key text d' -> d = d'.
Proof.
  intros (k & i & Hk & Hi & Hd) (k' & i' & Hk' & Hi' & Hd'). cbv zeta in *.
  assert (k = k') as <-.
  { destruct Hk as [[? ->]|[? Hk]], Hk' as [[? ->]|[? Hk']]; [done|lia|lia|]. by apply (sha256_unique key). }
  assert (i = i') as <- by (by eapply sha256_unique). by eapply sha256_unique.
Qed.

(** ** Strings *)
Lemma string_bytes_byte s : Forall byte (string_bytes s).
Proof. apply List.Forall_forall. intros x (a & <- & _)%in_map_iff. unfold byte. apply N_ascii_bounded. Qed.
Lemma string_bytes_of l : Forall byte l -> string_bytes (of_bytes l) = l.
Proof.
  intros Hl. unfold string_bytes, of_bytes. rewrite list_ascii_of_string_of_list_ascii. rewrite map_map.
  rewrite <- (map_id l) at 2. apply map_ext_in. intros x Hx. apply N_ascii_embedding.
  by apply (proj1 (List.Forall_forall _ _) Hl).
Qed.
Lemma string_bytes_inj s s' : string_bytes s = string_bytes s' -> s = s'.
Proof.
  revert s'. induction s as [|a s IH]; intros [|b s'] H; try done. injection H as H1 H2. f_equal; [|by apply IH].
  rewrite <- (ascii_N_embedding a), <- (ascii_N_embedding b). by f_equal.
Qed.

Lemma c86_sha256 : forall msg d, is_sha256 (string_bytes msg) d <-> d = string_bytes (sha256 msg).
Proof.
  intros msg d. unfold sha256. rewrite string_bytes_of by apply sha256_bytes_byte.
  pose proof (sha256_bytes_spec (string_bytes msg) (string_bytes_byte msg)) as H. split; [|by intros ->].
  intros Hd. exact (sha256_unique _ _ _ Hd H).
Qed.
Lemma hmac_bytes_byte key text : Forall byte (hmac_bytes key text).
Proof. unfold hmac_bytes. apply sha256_bytes_byte. Qed.
Lemma c86_hmac : forall key msg d, is_hmac (string_bytes key) (string_bytes msg) d <-> d = string_bytes (hmac_sha256 key msg).
Proof.
  intros key msg d. unfold hmac_sha256. rewrite string_bytes_of by apply hmac_bytes_byte.
  pose proof (hmac_bytes_spec (string_bytes key) (string_bytes msg) (string_bytes_byte key) (string_bytes_byte msg)) as H.
  split; [|by intros ->]. intros Hd. exact (hmac_unique _ _ _ _ Hd H).
Qed.
#[local] Opaque hmac_sha256.
Lemma signed secret key sig : is_hmac (string_bytes secret) (string_bytes key) (string_bytes sig) <-> sig = hmac_sha256 secret key.
Proof. rewrite c86_hmac. split; [apply string_bytes_inj|by intros ->]. Qed.

Lemma c86_from_key : forall secret key, is_hmac (string_bytes secret) (string_bytes key) (string_bytes (hs_signature (token_from_key secret key))).
Proof. intros secret key. by apply signed. Qed.
Lemma c86_valid : forall secret t, hs_valid t secret = true <-> is_hmac (string_bytes secret) (string_bytes (hs_key t)) (string_bytes (hs_signature t)).
Proof. intros secret t. rewrite signed. apply hs_valid_spec. Qed.
Lemma c86_parse : forall secret s t,
  parse_token secret s = inl t <->
  exists s0 s1, two_segments s s0 s1 /\ b64url_denotes s0 (hs_key t) /\ b64url_denotes s1 (hs_signature t) /\
    is_hmac (string_bytes secret) (string_bytes (hs_key t)) (string_bytes (hs_signature t)).
Proof. intros secret s t. rewrite c02_accept. setoid_rewrite signed. done. Qed.
