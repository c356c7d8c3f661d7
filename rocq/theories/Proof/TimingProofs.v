(** Steps of comparisons. *)
From Verif.Model Require Import Timing.
From Verif.Spec Require Import TokenSpec TimingSpec.
From Verif.Proof Require Import StrFacts HsFacts.
From Coq Require Import Lia ZifyBool ZifyNat ZifyN.
Local Open Scope N_scope.

(** ** Bytes *)
Lemma bytes_of_length s : length (bytes_of s) = slen s.
Proof. unfold bytes_of. rewrite map_length. induction s as [|a s IH]; [done|]. cbn. by rewrite IH. Qed.
Lemma bytes_of_cons a s : bytes_of (String a s) = ord a :: bytes_of s.
Proof. done. Qed.
Lemma ord_inj a b : ord a = ord b -> a = b.
Proof. intros H. unfold ord in H. rewrite <- (ascii_N_embedding a), <- (ascii_N_embedding b). by rewrite H. Qed.
Lemma bytes_of_inj x y : bytes_of x = bytes_of y -> x = y.
Proof.
  revert y. induction x as [|a x IH]; intros [|b y]; cbn; try done. intros H. injection H as H1 H2.
  apply ord_inj in H1 as ->. f_equal. by apply IH.
Qed.
Lemma bytes_of_byte s : List.Forall (fun b => b < 256) (bytes_of s).
Proof. induction s as [|a s IH]; [constructor|]. rewrite bytes_of_cons. constructor; [apply N_ascii_bounded|done]. Qed.

(** ** Constant time *)
Lemma byte_eq_zero v : v < 256 -> byte_eq v 0 = if v =? 0 then 1 else 0.
Proof.
  intros Hv. unfold byte_eq. rewrite N.lxor_0_r. unfold w32.
  replace 4294967295 with (N.ones 32) by reflexivity. rewrite N.land_ones.
  destruct (N.eqb_spec v 0) as [->|Hn]; [reflexivity|].
  replace (v + N.ones 32) with (v - 1 + 1 * 2 ^ 32) by (change (N.ones 32) with 4294967295; change (2 ^ 32) with 4294967296; lia).
  rewrite N.mod_add by done. rewrite N.mod_small by (change (2 ^ 32) with 4294967296; lia).
  rewrite N.shiftr_div_pow2. apply N.div_small. change (2 ^ 31) with 2147483648. lia.
Qed.
Lemma below_256_bits v : v < 256 <-> forall i, 8 <= i -> N.testbit v i = false.
Proof.
  split.
  - intros Hv i Hi. destruct (N.eq_dec v 0) as [->|Hn]; [apply N.bits_0|]. apply N.bits_above_log2.
    apply N.lt_le_trans with 8; [|done]. apply N.log2_lt_pow2; [lia|]. exact Hv.
  - intros H. destruct (N.lt_ge_cases v 256) as [|Hge]; [done|]. exfalso.
    assert (8 <= N.log2 v) by (apply N.log2_le_pow2; [lia|exact Hge]).
    pose proof (H _ H0) as Hb. rewrite N.bit_log2 in Hb by lia. done.
Qed.
Lemma lor_byte v a b : v < 256 -> a < 256 -> b < 256 -> N.lor v (N.lxor a b) < 256.
Proof.
  rewrite !below_256_bits. intros Hv Ha Hb i Hi. by rewrite N.lor_spec, N.lxor_spec, Hv, Ha, Hb.
Qed.
Lemma differences_value x : forall v i y, v < 256 -> List.Forall (fun b => b < 256) x -> List.Forall (fun b => b < 256) y ->
  length x = length y -> fst (differences v i x y) < 256 /\ (fst (differences v i x y) = 0 <-> v = 0 /\ x = y).
Proof.
  induction x as [|a x IH]; intros v i [|b y] Hv Hx Hy Hl; try done.
  - cbn. split; [done|]. tauto.
  - inversion Hx; inversion Hy; subst. cbn [differences]. injection Hl as Hl.
    destruct (IH (N.lor v (N.lxor a b)) (S i) y) as [H8 H9]; [by apply lor_byte|done|done|done|].
    destruct (differences (N.lor v (N.lxor a b)) (S i) x y) as [v' t]. cbn [fst] in *. split; [done|].
    rewrite H9, N.lor_eq_0_iff, N.lxor_eq_0_iff. split; [intros [[-> ->] ->]; done|]. intros [-> Heq]. by injection Heq as -> ->.
Qed.
Lemma differences_steps x : forall v v' i y x' y', length x = length x' -> length y = length y' ->
  snd (differences v i x y) = snd (differences v' i x' y').
Proof.
  induction x as [|a x IH]; intros v v' i y [|a' x'] y' Hx Hy; try done.
  destruct y as [|b y], y' as [|b' y']; try done. injection Hx as Hx. injection Hy as Hy. cbn [differences].
  pose proof (IH (N.lor v (N.lxor a b)) (N.lor v' (N.lxor a' b')) (S i) y x' y' Hx Hy) as H.
  destruct (differences (N.lor v (N.lxor a b)) (S i) x y), (differences (N.lor v' (N.lxor a' b')) (S i) x' y').
  cbn [snd] in *. by rewrite H.
Qed.
Lemma compare_value x y : List.Forall (fun b => b < 256) x -> List.Forall (fun b => b < 256) y ->
  fst (constant_time_compare x y) = 1 <-> x = y.
Proof.
  intros Hx Hy. unfold constant_time_compare. destruct (Nat.eqb_spec (length x) (length y)) as [Hl|Hl]; cbn [negb].
  - destruct (differences_value x 0 0 y) as [H1 H2]; [done..|]. destruct (differences 0 0 x y) as [v t]. cbn [fst] in *.
    rewrite byte_eq_zero by done. destruct (N.eqb_spec v 0) as [Hv|Hv]; [tauto|]. split; [done|]. intros H. by destruct Hv; apply H2.
  - cbn [fst]. split; [done|]. intros ->. done.
Qed.
Lemma compare_steps x y x' y' : length x = length x' -> length y = length y' ->
  snd (constant_time_compare x y) = snd (constant_time_compare x' y').
Proof.
  intros Hx Hy. unfold constant_time_compare. rewrite <- Hx, <- Hy. destruct (negb _); [done|].
  pose proof (differences_steps x 0 0 0 y x' y' Hx Hy) as H.
  destruct (differences 0 0 x y), (differences 0 0 x' y'). cbn [snd] in *. by rewrite H.
Qed.
Lemma equal_value t s : fst (equal_steps t s) = true <-> hs_signature t = s.
Proof.
  unfold equal_steps. pose proof (compare_value (bytes_of (hs_signature t)) (bytes_of s) (bytes_of_byte _) (bytes_of_byte _)) as H.
  destruct (constant_time_compare _ _) as [r l]. cbn [fst] in *. rewrite N.eqb_eq, H. split; [apply bytes_of_inj|by intros ->].
Qed.
Lemma c87_equal : forall t s, (fst (equal_steps t s) = true <-> hs_signature t = s) /\ fst (equal_steps t s) = hs_equal t s.
Proof.
  intros t s. split; [apply equal_value|]. apply eq_true_iff_eq. rewrite equal_value. unfold hs_equal. by rewrite seqb_true.
Qed.
Lemma c87_equal_steps : forall t t' s s', slen (hs_signature t) = slen (hs_signature t') -> slen s = slen s' ->
  snd (equal_steps t s) = snd (equal_steps t' s').
Proof.
  intros t t' s s' Ht Hs. unfold equal_steps.
  pose proof (compare_steps (bytes_of (hs_signature t)) (bytes_of s) (bytes_of (hs_signature t')) (bytes_of s')) as H.
  rewrite !bytes_of_length in H. specialize (H Ht Hs).
  destruct (constant_time_compare (bytes_of (hs_signature t)) _), (constant_time_compare (bytes_of (hs_signature t')) _). done.
Qed.

(** ** SHA-256 *)
Lemma absorb_run l : forall st l' st', length l = length l' -> length (snd (fst st)) = length (snd (fst st')) -> snd st = snd st' ->
  snd (fold_left absorb_steps l st) = snd (fold_left absorb_steps l' st').
Proof.
  induction l as [|b l IH]; intros st [|b' l'] st' Hl Hn Hs; try done. injection Hl as Hl. cbn [fold_left].
  apply IH; [done| |].
  - unfold absorb_steps, absorb. cbn [fst snd length]. rewrite Hn. destruct (Nat.eqb _ 64); cbn [snd length]; [done|]. by rewrite Hn.
  - unfold absorb_steps. cbn [snd length]. by rewrite Hn, Hs.
Qed.
Lemma sha256_steps_length m m' : length m = length m' -> sha256_steps m = sha256_steps m'.
Proof. intros H. unfold sha256_steps. rewrite H. apply absorb_run; [|done|done]. by rewrite !app_length, H. Qed.
Lemma zeros_length n : length (zeros n) = n.
Proof. induction n as [|n IH]; [done|]. cbn. by rewrite IH. Qed.
Lemma hmac_key_length k k' : length k = length k' -> length (hmac_key k) = length (hmac_key k').
Proof.
  intros H. unfold hmac_key. rewrite <- H. destruct (Nat.ltb 64 (length k)).
  - by rewrite !app_length, !zeros_length, !sha256_bytes_length.
  - by rewrite !app_length, !zeros_length, H.
Qed.
Lemma hmac_steps_length k m k' m' : length k = length k' -> length m = length m' -> hmac_steps k m = hmac_steps k' m'.
Proof.
  intros Hk Hm. pose proof (hmac_key_length k k' Hk) as HK. unfold hmac_steps. rewrite Hk. f_equal. f_equal; [|f_equal].
  - destruct (Nat.ltb 64 _); [|done]. by apply sha256_steps_length.
  - apply sha256_steps_length. by rewrite !app_length, !map_length, HK, Hm.
  - apply sha256_steps_length. by rewrite !app_length, !map_length, HK, !sha256_bytes_length.
Qed.
Lemma c87_valid : forall t secret, fst (valid_steps t secret) = hs_valid t secret.
Proof.
  intros t secret. unfold valid_steps, hs_valid. rewrite <- (proj2 (c87_equal _ _)).
  by destruct (equal_steps (token_from_key secret (hs_key t)) (hs_signature t)).
Qed.
Lemma c87_valid_steps : forall t t' secret secret', slen (hs_key t) = slen (hs_key t') ->
  slen (hs_signature t) = slen (hs_signature t') -> slen secret = slen secret' ->
  snd (valid_steps t secret) = snd (valid_steps t' secret').
Proof.
  intros t t' secret secret' Hk Hs Hn. unfold valid_steps.
  pose proof (c87_equal_steps (token_from_key secret (hs_key t)) (token_from_key secret' (hs_key t')) (hs_signature t) (hs_signature t')) as H.
  cbn [token_from_key hs_signature] in H. rewrite !hmac_length in H. specialize (H eq_refl Hs).
  destruct (equal_steps (token_from_key secret (hs_key t)) (hs_signature t)), (equal_steps (token_from_key secret' (hs_key t')) (hs_signature t')).
  cbn [snd] in *. subst. f_equal. apply hmac_steps_length; by rewrite !bytes_of_length.
Qed.
Lemma check_value secret key signature :
  fst (check_steps secret key signature) = hs_valid {| hs_key := key; hs_signature := signature |} secret.
Proof. unfold check_steps. rewrite <- c87_valid. by destruct (valid_steps _ _). Qed.
Lemma c87_parse : forall secret str s0 s1 key signature, two_segments str s0 s1 ->
  b64url_denotes s0 key -> b64url_denotes s1 signature ->
  (exists t, parse_token secret str = inl t) <-> fst (check_steps secret key signature) = true.
Proof.
  intros secret str s0 s1 key signature Hs Dk Ds. rewrite check_value, hs_valid_spec. cbn [hs_key hs_signature].
  apply rawurl_decode_spec in Dk, Ds. split.
  - intros (t & Ht). apply parse_token_inl in Ht as (a & b & Hab & Da & Db & Hv).
    apply split_two in Hs, Hab. rewrite Hs in Hab. injection Hab as <- <-. congruence.
  - intros Hv. exists {| hs_key := key; hs_signature := signature |}. apply parse_token_inl. by exists s0, s1.
Qed.
Lemma c87_forgeries : forall secret secret' key key' signature signature',
  slen secret = slen secret' -> slen key = slen key' -> slen signature = slen signature' ->
  fst (check_steps secret key signature) = fst (check_steps secret' key' signature') ->
  snd (check_steps secret key signature) = snd (check_steps secret' key' signature').
Proof.
  intros secret secret' key key' signature signature' H1 H2 H3. unfold check_steps.
  pose proof (c87_valid_steps {| hs_key := key; hs_signature := signature |} {| hs_key := key'; hs_signature := signature' |} secret secret' H2 H3 H1) as H.
  destruct (valid_steps _ secret), (valid_steps _ secret'). cbn [fst snd] in *. by intros ->; subst.
Qed.

(** ** Comparison of strings *)
Fixpoint pieces (n base k : nat) : list step :=
  match k with
  | O => [Branch true; Load base; Branch false]
  | S k' => Branch true :: Load base :: Branch true :: pieces n (base + n) k'
  end.
Lemma pieces_length n k : forall base, length (pieces n base k) = (3 * k + 3)%nat.
Proof. induction k as [|k IH]; intros base; [done|]. cbn [pieces length]. rewrite IH. lia. Qed.
Definition differ_at (x y : list N) (i : nat) : Prop := (forall j, (j < i)%nat -> x !! j = y !! j) /\ x !! i <> y !! i.
Lemma mem_equal_differ n fuel : forall base x y i, (0 < n)%nat -> (length x < fuel)%nat -> length x = length y -> differ_at x y i ->
  mem_equal fuel n base x y = (false, pieces n base (i / n)).
Proof.
  induction fuel as [|fuel IH]; intros base x y i Hn Hf Hl [Heq Hd]; [lia|].
  assert (Hi : (i < length x)%nat).
  { destruct (Nat.lt_ge_cases i (length x)) as [|Hge]; [done|]. destruct Hd. by rewrite !lookup_ge_None_2 by lia. }
  cbn [mem_equal]. destruct x as [|a x]; [cbn in Hi; lia|].
  set (l := a :: x) in *. clearbody l.
  destruct (Nat.lt_ge_cases i n) as [Hin|Hin].
  - rewrite decide_False; [by rewrite Nat.div_small|]. intros Ht. apply Hd.
    rewrite <- (lookup_take l n i Hin), <- (lookup_take y n i Hin). by rewrite Ht.
  - rewrite decide_True.
    2: { apply list_eq. intros j. destruct (Nat.lt_ge_cases j n) as [Hj|Hj]; [|by rewrite !lookup_take_ge].
         rewrite !lookup_take by done. apply Heq. lia. }
    rewrite (IH (base + n)%nat (drop n l) (drop n y) (i - n)%nat); [|done|rewrite drop_length; lia|by rewrite !drop_length, Hl|].
    + replace (i / n)%nat with (S ((i - n) / n)).
      * done.
      * replace i with ((i - n) + 1 * n)%nat at 2 by lia. rewrite Nat.div_add by lia. lia.
    + split.
      * intros j Hj. rewrite !lookup_drop. apply Heq. lia.
      * rewrite !lookup_drop. by replace (n + (i - n))%nat with i by lia.
Qed.
Lemma mem_equal_same n fuel : forall base x, fst (mem_equal fuel n base x x) = true.
Proof.
  induction fuel as [|fuel IH]; intros base x; [done|]. cbn [mem_equal]. destruct x as [|a x]; [done|].
  rewrite decide_True by done. pose proof (IH (base + n)%nat (skipn n (a :: x))) as H.
  destruct (mem_equal fuel n (base + n) _ _). done.
Qed.
Lemma some_difference (x y : list N) : length x = length y -> x = y \/ exists i, differ_at x y i.
Proof.
  revert y. induction x as [|a x IH]; intros [|b y] Hl; try done; [by left|].
  destruct (decide (a = b)) as [->|Hn].
  - injection Hl as Hl. destruct (IH y Hl) as [->|[i [H1 H2]]]; [by left|]. right. exists (S i). split.
    + intros [|j] Hj; [done|]. cbn. apply H1. lia.
    + done.
  - right. exists 0%nat. split; [lia|]. cbn. congruence.
Qed.
Lemma get_bytes s i : bytes_of s !! i = ord <$> String.get i s.
Proof. revert i. induction s as [|a s IH]; intros [|i]; try done. cbn. apply IH. Qed.
Lemma first_difference_bytes x y i : first_difference x y i -> differ_at (bytes_of x) (bytes_of y) i.
Proof.
  intros [H1 H2]. split.
  - intros j Hj. rewrite !get_bytes. by rewrite H1.
  - rewrite !get_bytes. intros H. apply H2. destruct (String.get i x), (String.get i y); cbn in H; try done.
    injection H as H. by apply ord_inj in H as ->.
Qed.
Lemma c88_equal : forall n x y, (0 < n)%nat -> fst (string_equal n x y) = true <-> x = y.
Proof.
  intros n x y Hn. unfold string_equal. destruct (Nat.eqb_spec (slen x) (slen y)) as [Hl|Hl]; cbn [negb].
  - destruct (some_difference (bytes_of x) (bytes_of y)) as [H|[i Hi]]; [by rewrite !bytes_of_length| |].
    + apply bytes_of_inj in H as ->. pose proof (mem_equal_same n (S (slen y)) 0 (bytes_of y)).
      destruct (mem_equal _ _ _ _ _). done.
    + rewrite (mem_equal_differ n _ 0 _ _ i) by (rewrite ?bytes_of_length; solve [done|lia]). cbn [fst]. split; [done|].
      intros ->. by destruct Hi as [_ []].
  - cbn [fst]. split; [done|]. by intros ->.
Qed.
Lemma string_equal_differ n x y i : (0 < n)%nat -> slen x = slen y -> first_difference x y i ->
  string_equal n x y = (false, Branch false :: pieces n 0 (i / n)).
Proof.
  intros Hn Hl Hi%first_difference_bytes. unfold string_equal. rewrite Hl, Nat.eqb_refl. cbn [negb].
  by rewrite (mem_equal_differ n _ 0 _ _ i) by (rewrite ?bytes_of_length; solve [done|lia]).
Qed.
Lemma c88_partial : forall n x x' y i i', (0 < n)%nat -> slen x = slen y -> slen x' = slen y ->
  first_difference x y i -> first_difference x' y i' ->
  snd (string_equal n x y) = snd (string_equal n x' y) <-> (i / n = i' / n)%nat.
Proof.
  intros n x x' y i i' Hn Hx Hx' Hi Hi'. rewrite (string_equal_differ n x y i), (string_equal_differ n x' y i') by done. cbn [snd].
  split; [|by intros ->]. intros H. injection H as H. apply (f_equal length) in H. rewrite !pieces_length in H. lia.
Qed.
Lemma c88_lengths : forall n x x' y, slen x <> slen y -> slen x' <> slen y -> string_equal n x y = string_equal n x' y.
Proof.
  intros n x x' y H H'. unfold string_equal. apply Nat.eqb_neq in H, H'. by rewrite H, H'.
Qed.
Fixpoint copies (n : nat) (a : ascii) (tail : string) : string := match n with O => tail | S n' => String a (copies n' a tail) end.
Lemma copies_length n a t : slen (copies n a t) = (n + slen t)%nat.
Proof. induction n as [|n IH]; [done|]. cbn. by rewrite IH. Qed.
Lemma copies_get n a t j : String.get j (copies n a t) = if (j <? n)%nat then Some a else String.get (j - n) t.
Proof.
  revert j. induction n as [|n IH]; intros j; [by destruct j|]. destruct j as [|j]; [done|]. cbn [copies String.get]. rewrite IH.
  by change (S j <? S n)%nat with (j <? n)%nat.
Qed.
Lemma c88_refuted : forall n, (0 < n)%nat -> exists x x' y,
  slen x = slen y /\ slen x' = slen y /\ x <> y /\ x' <> y /\
  snd (string_equal n x y) <> snd (string_equal n x' y).
Proof.
  intros n Hn. exists (String "b" (copies n "a" "")), (copies n "a" "b"), (copies n "a" "a").
  assert (H1 : first_difference (String "b" (copies n "a" "")) (copies n "a" "a") 0).
  { split; [lia|]. rewrite copies_get. destruct (Nat.ltb_spec 0 n); [done|lia]. }
  assert (H2 : first_difference (copies n "a" "b") (copies n "a" "a") n).
  { split.
    - intros j Hj. rewrite !copies_get. by destruct (Nat.ltb_spec j n); [|lia].
    - rewrite !copies_get. destruct (Nat.ltb_spec n n); [lia|]. by rewrite Nat.sub_diag. }
  assert (L1 : slen (String "b" (copies n "a" "")) = slen (copies n "a" "a")) by (cbn [slen String.length]; rewrite !copies_length; cbn; lia).
  assert (L2 : slen (copies n "a" "b") = slen (copies n "a" "a")) by (by rewrite !copies_length).
  split; [done|]. split; [done|]. split; [intros E; rewrite E in H1; by destruct H1 as [_ []]|].
  split; [intros E; rewrite E in H2; by destruct H2 as [_ []]|].
  rewrite (c88_partial n _ _ _ 0 n) by done. rewrite Nat.div_0_l, Nat.div_same by lia. done.
Qed.
