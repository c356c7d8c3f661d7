(** Number literals: scanning, ParseFloat, and what is written for a float64. *)
From Verif.Model Require Import Float Json.
From Verif.Spec Require Import NumberSpec.
From Verif.Proof Require Import StrFacts DecFacts JsonFacts FloatFacts FloatText.
From Coq Require Import ZifyBool Psatz.
Local Open Scope Z_scope.

(** ** Scanning *)
Lemma decimal_digits_spec s : decimal_digits s <-> s <> "" /\ digits s = true.
Proof.
  split; intros [Hne H]; split; try done.
  - clear Hne. unfold digits. induction s as [|a s IH]; [done|]. cbn. apply andb_true_iff. split.
    + specialize (H a (or_introl eq_refl)). unfold decimal_digit in H. unfold is_digit, GoStr.ord. lia.
    + apply IH. intros b Hb. apply H. by right.
  - clear Hne. unfold digits in H. induction s as [|a s IH]; intros b Hb; [done|]. cbn in H. apply andb_true_iff in H as [Ha H].
    destruct Hb as [<-|Hb]; [|by apply IH]. unfold is_digit, GoStr.ord in Ha. unfold decimal_digit. lia.
Qed.
Lemma take_digits_stop d rest : digits d = true ->
  match rest with String a _ => is_digit a = false | "" => True end -> take_digits (d +:+ rest) = (d, rest).
Proof.
  intros Hd Hr. induction d as [|a d IH].
  - rewrite app_nil_s. destruct rest as [|b r]; [done|]. cbn. by rewrite Hr.
  - rewrite app_cons_s. cbn. unfold digits in *. cbn in Hd. apply andb_true_iff in Hd as [Ha Hd].
    rewrite Ha, IH by done. done.
Qed.
Lemma number_exp_scan e x rest : number_exp e x -> num_end rest = true -> scan_exp (e +:+ rest) = Some (e, rest).
Proof.
  intros [[-> _]|(c & sign & d & Hx & Hs & Hd & -> & _)] Hr; [rewrite app_nil_s; by apply num_end_exp|].
  apply decimal_digits_spec in Hd as [Hne Hd]. pose proof Hne as Hs0. apply seqb_false in Hs0.
  assert (Hx' : Ascii.eqb c "e" || Ascii.eqb c "E" = true) by (destruct Hx as [<-|[<-|[]]]; done).
  rewrite app_cons_s. cbn [scan_exp]. rewrite Hx'.
  destruct Hs as [<-|[<-|[<-|[]]]].
  - rewrite app_nil_s. destruct d as [|b d]; [done|]. rewrite app_cons_s.
    assert (Ascii.eqb b "+" || Ascii.eqb b "-" = false) as ->.
    { unfold digits in Hd. cbn in Hd. apply andb_true_iff in Hd as [Hb _].
      destruct (Ascii.eqb_spec b "+") as [->|]; [discriminate|]. by destruct (Ascii.eqb_spec b "-") as [->|]. }
    rewrite <- app_cons_s, take_digits_app by done. by rewrite Hs0.
  - change (("+" +:+ d) +:+ rest) with (String "+" (d +:+ rest)). cbv iota. change (Ascii.eqb "+" "+" || Ascii.eqb "+" "-") with true. cbv iota.
    rewrite take_digits_app by done. by rewrite Hs0.
  - change (("-" +:+ d) +:+ rest) with (String "-" (d +:+ rest)). cbv iota. change (Ascii.eqb "-" "+" || Ascii.eqb "-" "-") with true. cbv iota.
    rewrite take_digits_app by done. by rewrite Hs0.
Qed.
Lemma number_exp_head e x rest : number_exp e x -> num_end rest = true ->
  match e +:+ rest with String a _ => is_digit a = false /\ Ascii.eqb a "." = false | "" => True end.
Proof.
  intros [[-> _]|(c & sign & d & Hx & _ & _ & -> & _)] Hr.
  - rewrite app_nil_s. destruct rest as [|a r]; [done|]. cbn in Hr. rewrite !negb_orb, !andb_true_iff in Hr.
    destruct Hr as [[[H1 H2] _] _]. apply negb_true_iff in H1, H2. done.
  - rewrite app_cons_s. by destruct Hx as [<-|[<-|[]]].
Qed.
Lemma number_frac_scan f d rest : number_frac f d ->
  match rest with String a _ => is_digit a = false /\ Ascii.eqb a "." = false | "" => True end ->
  scan_frac (f +:+ rest) = Some (f, rest).
Proof.
  intros [[-> _]|(Hd & ->)] Hr.
  - rewrite app_nil_s. destruct rest as [|a r]; [done|]. cbn. by destruct Hr as [_ ->].
  - rewrite app_cons_s. cbn. apply decimal_digits_spec in Hd as [Hne Hd]. apply seqb_false in Hne.
    rewrite take_digits_stop; [by rewrite Hne|done|]. destruct rest; [done|]. by destruct Hr.
Qed.
Lemma number_frac_head f d rest : number_frac f d ->
  match rest with String a _ => is_digit a = false | "" => True end ->
  match f +:+ rest with String a _ => is_digit a = false | "" => True end.
Proof. intros [[-> _]|(Hd & ->)] Hr; [by rewrite app_nil_s|]. done. Qed.
Lemma number_int_scan i rest : number_int i ->
  match rest with String a _ => is_digit a = false | "" => True end -> scan_int (i +:+ rest) = Some (i, rest).
Proof.
  intros [->|[Hd H0]] Hr; [done|]. apply decimal_digits_spec in Hd as [Hne Hd]. destruct i as [|a i]; [done|].
  unfold digits in Hd. cbn in Hd. apply andb_true_iff in Hd as [Ha Hd].
  rewrite app_cons_s. cbn. destruct (Ascii.eqb_spec a "0") as [->|]; [by destruct (H0 i)|].
  rewrite Ha, take_digits_stop by done. done.
Qed.
Lemma number_int_head i : number_int i -> exists a r, i = String a r /\ is_digit a = true.
Proof.
  intros [->|[Hd _]]; [by exists "0"%char, ""|]. apply decimal_digits_spec in Hd as [Hne Hd]. destruct i as [|a i]; [done|].
  unfold digits in Hd. cbn in Hd. apply andb_true_iff in Hd as [Ha Hd]. by exists a, i.
Qed.
Lemma json_number_ok s : json_number s -> num_ok s.
Proof.
  intros (v & sign & i & f & d & e & x & Hs & Hi & Hf & He & -> & _).
  destruct (number_int_head i Hi) as (a & r & Hia & Ha). split.
  - intros rest Hr. pose proof (number_exp_head e x rest He Hr) as Hh.
    assert (Hh1 : match e +:+ rest with String a _ => is_digit a = false | "" => True end) by (destruct (e +:+ rest); [done|by destruct Hh]).
    pose proof (number_frac_head f d _ Hf Hh1) as Hh2.
    assert (Hcore : forall sg, match scan_int (i +:+ f +:+ e +:+ rest) with
      | None => None
      | Some (i0, s1) => match scan_frac s1 with None => None | Some (f0, s2) =>
          match scan_exp s2 with None => None | Some (e0, s3) => Some (sg +:+ i0 +:+ f0 +:+ e0, s3) end end end
      = Some (sg +:+ i +:+ f +:+ e, rest)).
    { intros sg. rewrite number_int_scan by done. rewrite (number_frac_scan f d) by done. by rewrite (number_exp_scan e x). }
    rewrite !app_assoc_s. unfold scan_number. destruct Hs as [<-|[<-|[]]].
    + rewrite !app_nil_s. rewrite Hia at 1. rewrite app_cons_s.
      assert (Ascii.eqb a "-" = false) as -> by (by destruct (Ascii.eqb_spec a "-") as [->|]).
      rewrite (Hcore ""). by rewrite !app_nil_s.
    + change ("-" +:+ i +:+ f +:+ e +:+ rest) with (String "-" (i +:+ f +:+ e +:+ rest)).
      cbv iota. change (Ascii.eqb "-" "-") with true. cbv iota. exact (Hcore "-").
  - subst i. destruct Hs as [<-|[<-|[]]].
    + eexists _, _. split; [reflexivity|]. by left.
    + eexists _, _. split; [reflexivity|]. by right.
Qed.

(** ** Reading *)
Lemma digits_value_from s : digits s = true -> forall acc,
  dec_value s acc = Some (Z.to_N (fold_left (fun v a => 10 * v + (Z.of_N (N_of_ascii a) - 48)) (list_ascii_of_string s) (Z.of_N acc))).
Proof.
  unfold digits. induction s as [|a s IH]; intros Hd acc; [cbn; f_equal; lia|].
  cbn in Hd. apply andb_true_iff in Hd as [Ha Hd]. cbn [dec_value list_ascii_of_string fold_left]. rewrite Ha, IH by done.
  do 3 f_equal. unfold is_digit in Ha. unfold GoStr.ord in *. lia.
Qed.
Lemma digits_value_dec s : digits s = true -> dec_value s 0 = Some (Z.to_N (digits_value s)).
Proof. intros H. by rewrite digits_value_from. Qed.
Lemma digits_value_bound s : digits s = true -> 0 <= digits_value s < 10 ^ Z.of_nat (slen s).
Proof.
  intros Hd. assert (Hnn : forall l v, 0 <= v -> (forall a, In a l -> is_digit a = true) ->
    0 <= fold_left (fun v a => 10 * v + (Z.of_N (N_of_ascii a) - 48)) l v).
  { induction l as [|a l IH]; intros v Hv H; [done|]. cbn. apply IH; [|intros b Hb; apply H; by right].
    specialize (H a (or_introl eq_refl)). unfold is_digit, GoStr.ord in H. lia. }
  destruct (dec_value_bound s Hd) as (v & Hv & Hb & _). rewrite digits_value_dec in Hv by done. injection Hv as Hv.
  assert (0 <= digits_value s).
  { apply Hnn; [lia|]. intros a Ha. destruct (String.string_dec s "") as [->|Hne]; [done|].
    destruct (proj2 (decimal_digits_spec s) (conj Hne Hd)) as [_ H]. specialize (H a Ha). unfold decimal_digit in H. unfold is_digit, GoStr.ord. lia. }
  assert (v = digits_value s) as -> by lia. exact Hb.
Qed.
Lemma digits_value_nat n : digits_value (dec_of_N n) = Z.of_N n.
Proof.
  destruct (dec_of_N_spec n) as (Hd & Hne & Hv & _). pose proof (digits_value_bound _ Hd).
  rewrite digits_value_dec in Hv by done. injection Hv. lia.
Qed.
Lemma digits_value_app s t : digits s = true -> digits t = true ->
  digits_value (s +:+ t) = digits_value s * 10 ^ Z.of_nat (slen t) + digits_value t.
Proof.
  intros Hs Ht. pose proof (digits_value_bound s Hs). pose proof (digits_value_bound t Ht).
  assert (Hst : digits (s +:+ t) = true) by (unfold digits in *; by rewrite all_bytes_app, Hs, Ht).
  pose proof (digits_value_bound _ Hst) as Hb. pose proof (digits_value_dec _ Hst) as H1.
  rewrite dec_value_app, (digits_value_dec s) in H1 by done.
  destruct (dec_value_shift t Ht) as (v & Hv & H2). pose proof (digits_value_dec t Ht) as H3. rewrite H2, N.mul_0_l, N.add_0_l in H3.
  injection H3 as H3. assert (v = digits_value t) as -> by lia. rewrite H2 in H1. injection H1 as H1.
  unfold pow10 in *. set (P := 10 ^ Z.of_nat (slen t)) in *. clearbody P.
  set (a := digits_value s) in *. set (b := digits_value t) in *. set (c := digits_value (s +:+ t)) in *. clearbody a b c. nia.
Qed.

Lemma exp_value_small s : digits s = true -> forall acc, 0 <= acc ->
  forall v, fold_left (fun v a => 10 * v + (Z.of_N (N_of_ascii a) - 48)) (list_ascii_of_string s) acc = v ->
  (v < 10000 -> exp_value s acc = v) /\ (10000 <= v -> 10000 <= exp_value s acc) /\ acc <= v.
Proof.
  unfold digits. induction s as [|a s IH]; intros Hd acc Hacc v Hv; [cbn in *; lia|].
  cbn in Hd. apply andb_true_iff in Hd as [Ha Hd]. cbn [list_ascii_of_string fold_left exp_value] in *.
  pose proof (digit_bound a Ha) as Hb. unfold GoStr.ord in *.
  assert (Heq : acc * 10 + Z.of_N (N_of_ascii a - 48) = 10 * acc + (Z.of_N (N_of_ascii a) - 48)).
  { unfold is_digit, GoStr.ord in Ha. lia. }
  assert (Hnn : 0 <= 10 * acc + (Z.of_N (N_of_ascii a) - 48)) by lia.
  destruct (Z.ltb_spec acc 10000) as [H|H].
  - rewrite Heq. specialize (IH Hd _ Hnn v Hv). lia.
  - assert (Hbig : forall t b, 10000 <= b -> 10000 <= exp_value t b).
    { clear. induction t as [|c t IHt]; intros b Hb; [done|]. cbn. replace (b <? 10000) with false by lia. auto. }
    specialize (IH Hd _ Hnn v Hv). specialize (Hbig s acc H). lia.
Qed.
Lemma exp_value_spec s : digits s = true ->
  (digits_value s < 10000 -> exp_value s 0 = digits_value s) /\ (10000 <= digits_value s -> 10000 <= exp_value s 0).
Proof. intros H. pose proof (exp_value_small s H 0 ltac:(lia) _ eq_refl) as (H1 & H2 & _). done. Qed.

(** The exponent that is read, where it differs from the exponent meant. *)
Lemma exponent_read e x : number_exp e x ->
  (-10000 < x < 10000 -> exponent e = x) /\ (10000 <= x -> 10000 <= exponent e) /\ (x <= -10000 -> exponent e <= -10000).
Proof.
  intros [[-> ->]|(c & sign & d & _ & Hs & Hd & -> & ->)]; [cbn; lia|].
  apply decimal_digits_spec in Hd as [Hne Hd]. pose proof (digits_value_bound d Hd) as Hb. pose proof (exp_value_spec d Hd) as [H1 H2].
  destruct Hs as [<-|[<-|[<-|[]]]].
  - rewrite app_nil_s, decide_False by done. destruct d as [|a d]; [done|]. cbn [exponent].
    assert (Ha : is_digit a = true) by (unfold digits in Hd; cbn in Hd; by apply andb_true_iff in Hd as [? _]).
    destruct (Ascii.eqb_spec a "-") as [->|]; [done|]. destruct (Ascii.eqb_spec a "+") as [->|]; [done|]. lia.
  - rewrite decide_False by done. change ("+" +:+ d) with (String "+" d). cbn [exponent].
    change (Ascii.eqb "+" "-") with false. change (Ascii.eqb "+" "+") with true. cbv iota. lia.
  - rewrite decide_True by done. change ("-" +:+ d) with (String "-" d). cbn [exponent].
    change (Ascii.eqb "-" "-") with true. cbv iota. lia.
Qed.

Lemma decimal_read sign i f d e x : In sign [""; "-"] -> number_int i -> number_frac f d -> number_exp e x ->
  decimal (sign +:+ i +:+ f +:+ e) = (bool_decide (sign = "-"), digits_value (i +:+ d), exponent e - Z.of_nat (slen d)).
Proof.
  intros Hs Hi Hf He. pose proof (number_exp_head e x "" He eq_refl) as Hh. rewrite app_nil_r_s in Hh.
  destruct (number_int_head i Hi) as (a & r & Hia & Ha).
  assert (Hid : digits i = true).
  { destruct Hi as [->|[Hi _]]; [done|]. by apply decimal_digits_spec in Hi as [_ Hi]. }
  assert (Hdd : digits d = true).
  { destruct Hf as [[-> ->]|[Hd ->]]; [done|]. by apply decimal_digits_spec in Hd as [_ Hd]. }
  assert (Hcore : take_digits (i +:+ f +:+ e) = (i, f +:+ e)).
  { apply take_digits_stop; [done|]. destruct Hf as [[-> _]|[Hd ->]]; [|done]. rewrite app_nil_s. destruct e; [done|]. by destruct Hh. }
  assert (Hfr : match f +:+ e with String c r => if Ascii.eqb c "." then take_digits r else ("", f +:+ e) | "" => ("", "") end = (d, e)).
  { destruct Hf as [[-> ->]|[Hd ->]].
    - rewrite app_nil_s. destruct e as [|c e]; [done|]. destruct Hh as [_ ->]. done.
    - rewrite app_cons_s. change (Ascii.eqb "." ".") with true. cbv iota. apply take_digits_stop; [done|]. destruct e; [done|]. by destruct Hh. }
  assert (Hid' : digits (i +:+ d) = true) by (unfold digits in *; by rewrite all_bytes_app, Hid, Hdd).
  pose proof (digits_value_bound _ Hid') as Hb.
  unfold decimal. destruct Hs as [<-|[<-|[]]].
  - rewrite app_nil_s. rewrite Hia at 1. rewrite app_cons_s.
    assert (Ascii.eqb a "-" = false) as -> by (by destruct (Ascii.eqb_spec a "-") as [->|]).
    rewrite Hcore, Hfr, digits_value_dec by done. unfold default, id. rewrite Z2N.id by lia. done.
  - change ("-" +:+ i +:+ f +:+ e) with (String "-" (i +:+ f +:+ e)). cbv beta iota. change (Ascii.eqb "-" "-") with true. cbv beta iota.
    rewrite Hcore, Hfr, digits_value_dec by done. unfold default, id. rewrite Z2N.id by lia. done.
Qed.
#[local] Opaque to_float.
(** Cutting off the exponent makes no difference for literals of moderate length. *)
Lemma exponent_cut q e x k N : 0 <= N <= 9000 -> 0 <= q < 10 ^ N -> 0 <= k <= 9000 -> number_exp e x ->
  dec_to_float q (exponent e - k) = dec_to_float q (x - k).
Proof.
  intros HN Hq Hk He. destruct (exponent_read e x He) as (H1 & H2 & H3).
  destruct (Z.le_gt_cases 10000 x) as [Hx|Hx]; [|destruct (Z.le_gt_cases x (-10000)) as [Hx'|Hx']; [|by rewrite H1 by lia]].
  - specialize (H2 Hx). unfold dec_to_float. destruct (Z.eqb_spec q 0) as [->|Hq0]; [done|].
    destruct (ndigits_spec q ltac:(lia)) as (Hn & _). set (n := ndigits q) in *. clearbody n. clear Hq.
    replace (310 <? n + (exponent e - k)) with true by lia. by replace (310 <? n + (x - k)) with true by lia.
  - specialize (H3 Hx'). unfold dec_to_float. destruct (Z.eqb_spec q 0) as [->|Hq0]; [done|].
    destruct (ndigits_spec q ltac:(lia)) as (Hn & Hlo & _). set (n := ndigits q) in *. clearbody n.
    assert (Hn' : n <= N).
    { destruct (Z.le_gt_cases n N) as [|Hgt]; [done|exfalso].
      assert (10 ^ N <= 10 ^ (n - 1)) by (apply Z.pow_le_mono_r; lia). lia. }
    clear Hq. replace (310 <? n + (exponent e - k)) with false by lia. replace (310 <? n + (x - k)) with false by lia.
    replace (n + (exponent e - k) <? -330) with true by lia. by replace (n + (x - k) <? -330) with true by lia.
Qed.
