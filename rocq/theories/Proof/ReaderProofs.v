(** Proofs about readers (C05). *)
From Verif.Model Require Import Reader.
From Verif.Spec Require Import ReaderSpec.
From Verif.Proof Require Import StrFacts Base64Facts HsFacts TokenProofs.

#[local] Opaque hmac_sha256.

Lemma buffered_cons x l : buffered (x :: l) = rc_bytes x +:+ buffered l.
Proof. unfold buffered. cbn [map String.concat]. destruct l; cbn [map String.concat]; [by rewrite app_nil_r_s|done]. Qed.

Lemma loop_length {S} (rd : reader S) missing st l st' : obeys rd -> read_loop rd missing st l st' -> slen (buffered l) <= missing.
Proof.
  intros Ho H. induction H as [st|missing st st1 b Hp Hr|missing st st1 b l st2 Hp Hr Hl IH]; [cbn; lia|..];
    rewrite buffered_cons, slen_app; cbn [rc_bytes]; pose proof (Ho _ _ _ _ _ Hr); [cbn; lia|lia].
Qed.
(** Every call asks for exactly what is missing. *)
Lemma loop_asks {S} (rd : reader S) missing st l st' : obeys rd -> read_loop rd missing st l st' ->
  forall l1 x l2, l = l1 ++ x :: l2 -> rc_asked x + slen (buffered l1) = missing /\ 0 < rc_asked x /\
    (rc_failed x = true -> l2 = []).
Proof.
  intros Ho H. induction H as [st|missing st st1 b Hp Hr|missing st st1 b l st2 Hp Hr Hl IH]; intros l1 x l2 E.
  - by destruct l1.
  - destruct l1 as [|y l1]; [|by destruct l1]. injection E as <- <-. cbn. split; [lia|]. done.
  - destruct l1 as [|y l1]; injection E as <- E.
    + cbn. split; [lia|]. by split.
    + destruct (IH _ _ _ E) as (H1 & H2 & H3). rewrite buffered_cons, slen_app. cbn [rc_bytes].
      pose proof (Ho _ _ _ _ _ Hr). pose proof (loop_length _ _ _ _ _ Ho Hl). split; [lia|done].
Qed.
Lemma loop_short {S} (rd : reader S) missing st l st' : obeys rd -> read_loop rd missing st l st' ->
  slen (buffered l) < missing -> exists l1 x, l = l1 ++ [x] /\ rc_failed x = true.
Proof.
  intros Ho H. induction H as [st|missing st st1 b Hp Hr|missing st st1 b l st2 Hp Hr Hl IH]; intros Hs; [cbn in Hs; lia|by exists [], {| rc_asked := missing; rc_bytes := b; rc_failed := true |}|].
  rewrite buffered_cons, slen_app in Hs. cbn [rc_bytes] in Hs. destruct IH as (l1 & x & -> & Hx); [lia|]. by exists ({| rc_asked := missing; rc_bytes := b; rc_failed := false |} :: l1), x.
Qed.
Lemma loop_fun {S} (rd : reader S) missing st l st' : read_loop rd missing st l st' -> forall l' st'', read_loop rd missing st l' st'' -> l = l' /\ st' = st''.
Proof.
  intros H. induction H as [st|missing st st1 b Hp Hr|missing st st1 b l st2 Hp Hr Hl IH]; intros l' st'' H'; inversion H'; subst; try lia; try done; try congruence.
  - rewrite Hr in *. match goal with E : (_, _, _) = (_, _, _) |- _ => injection E as -> -> end. done.
  - match goal with E : rd st missing = _, E' : read_loop _ _ _ _ st'' |- _ => rewrite Hr in E; injection E as <- <-; apply IH in E' as [<- <-] end. done.
Qed.
Lemma loop_ends {S} (rd : reader S) : obeys rd -> progresses rd -> forall n missing st, missing <= n -> exists l st', read_loop rd missing st l st'.
Proof.
  intros Ho Hp. induction n as [|n IH]; intros missing st Hn.
  - replace missing with 0 by lia. eexists _, _. constructor.
  - destruct missing as [|m]; [eexists _, _; constructor|]. destruct (rd st (Datatypes.S m)) as [[st1 b] [|]] eqn:E.
    + eexists _, _. apply (loop_failed _ _ _ _ _ (Nat.lt_0_succ _) E).
    + assert (b <> "") as Hb by exact (Hp _ _ _ _ (Nat.lt_0_succ _) E).
      assert (0 < slen b) by (destruct b; [done|cbn; lia]).
      destruct (IH (Datatypes.S m - slen b) st1) as (l & st2 & Hl); [lia|]. eexists _, _. exact (loop_more _ _ _ _ _ _ _ (Nat.lt_0_succ _) E Hl).
Qed.

Lemma c05_reader : forall S (rd : reader S) secret n st res l st', obeys rd -> generates rd secret n st res l st' ->
  (forall t, res = Some t <-> generate secret n (buffered l) = GenOk t "") /\
  (res = None <-> generate secret n (buffered l) = GenErr).
Proof.
  intros S rd secret n st res l st' Ho H.
  assert (Hlen : forall (_ : (0 <= n)%Z) (_ : read_loop rd (Z.to_nat n) st l st'), (Z.of_nat (slen (buffered l)) <= n)%Z).
  { intros H0 Hl. pose proof (loop_length _ _ _ _ _ Ho Hl). lia. }
  unfold generate. inversion H as [? ? H0 Hl Hs|? ? H0 Hl Hs]; subst; specialize (Hlen H0 Hl); rewrite (proj2 (Z.ltb_ge n 0) H0).
  - destruct (read_full_spec (Z.to_nat n) (buffered l)) as [(k & rest & -> & Hk & Hl2) _]; [lia|].
    apply (f_equal slen) in Hk as Hk'. rewrite slen_app in Hk'. assert (rest = "") as -> by (destruct rest; [done|cbn in Hk'; lia]).
    rewrite app_nil_r_s in Hk. rewrite Hk. split; [|done]. intros t. split; [by intros [= <-]|by intros [= <-]].
  - rewrite (proj2 (read_full_spec (Z.to_nat n) (buffered l))) by lia. done.
Qed.
Lemma c05_reader_calls : forall S (rd : reader S) secret n st res l st', obeys rd -> generates rd secret n st res l st' ->
  (forall l1 x l2, l = (l1 ++ x :: l2)%list -> Z.of_nat (rc_asked x) = (n - Z.of_nat (slen (buffered l1)))%Z /\ 0 < rc_asked x /\
     (rc_failed x = true -> l2 = [])) /\
  (res = None -> exists l1 x, l = (l1 ++ [x])%list /\ rc_failed x = true).
Proof.
  intros S rd secret n st res l st' Ho H. assert (Hl : (0 <= n)%Z /\ read_loop rd (Z.to_nat n) st l st') by (by inversion H).
  destruct Hl as [H0 Hl]. split.
  - intros l1 x l2 E. destruct (loop_asks _ _ _ _ _ Ho Hl _ _ _ E) as (H1 & H2 & H3). split; [lia|done].
  - intros ->. inversion H; subst. eapply loop_short; [done..|lia].
Qed.
Lemma c05_reader_one : forall S (rd : reader S) secret n st, obeys rd -> progresses rd -> (0 <= n)%Z ->
  exists res l st', generates rd secret n st res l st' /\
    forall res' l' st'', generates rd secret n st res' l' st'' -> res' = res /\ l' = l /\ st'' = st'.
Proof.
  intros S rd secret n st Ho Hp H0. destruct (loop_ends rd Ho Hp (Z.to_nat n) (Z.to_nat n) st) as (l & st' & Hl); [lia|].
  destruct (Z.ltb_spec (Z.of_nat (slen (buffered l))) n) as [Hs|Hs].
  - exists None, l, st'. split; [by constructor|]. intros res' l' st'' H. inversion H as [? ? _ Hl' Hs'|? ? _ Hl' Hs']; subst;
      destruct (loop_fun _ _ _ _ _ Hl _ _ Hl') as [<- <-]; [lia|done].
  - exists (Some (token_from_key secret (buffered l))), l, st'. split; [by constructor|]. intros res' l' st'' H.
    inversion H as [? ? _ Hl' Hs'|? ? _ Hl' Hs']; subst; destruct (loop_fun _ _ _ _ _ Hl _ _ Hl') as [<- <-]; [done|lia].
Qed.
Lemma c05_reader_twice : forall S (rd : reader S) secret n n' st t l st1 res l' st2, obeys rd ->
  generates rd secret n st (Some t) l st1 -> generates rd secret n' st1 res l' st2 ->
  generate secret n (buffered l +:+ buffered l') = GenOk t (buffered l') /\
  (forall t', res = Some t' <-> generate secret n' (buffered l') = GenOk t' "") /\
  (res = None <-> generate secret n' (buffered l') = GenErr).
Proof.
  intros S rd secret n n' st t l st1 res l' st2 Ho H H'. split; [|by eapply c05_reader].
  inversion H as [? ? H0 Hl Hs|]; subst. pose proof (loop_length _ _ _ _ _ Ho Hl) as Hle.
  destruct (c05_proof secret n (buffered l +:+ buffered l') H0) as [Hx _].
  destruct (Hx (buffered l) (buffered l') eq_refl ltac:(lia)) as [-> _]. done.
Qed.

(** ** Cases *)
Lemma substring_length n m s : slen (substring n m s) <= m.
Proof.
  revert n m. induction s as [|a s IH]; intros [|n] [|m]; cbn; try lia; [specialize (IH 0 m)|specialize (IH n 0)|specialize (IH n (S m))]; lia.
Qed.
Lemma string_reader_good : obeys string_reader /\ progresses string_reader.
Proof.
  split; intros src n st' b.
  - intros e [= _ <- _]. apply substring_length.
  - intros Hn [= _ <- E]. destruct src as [|a src]; [done|]. destruct n; [lia|done].
Qed.
Lemma slow_reader_good : obeys slow_reader /\ progresses slow_reader.
Proof.
  split; intros src n st' b.
  - intros e. destruct n, src; cbn; intros [= _ <- _]; cbn; lia.
  - intros Hn. destruct n, src; cbn; [lia|lia|done|]. by intros [= _ <- _].
Qed.
Lemma slow_case : generates slow_reader "secret" 3 "abc" (Some (token_from_key "secret" "abc"))
  [{| rc_asked := 3; rc_bytes := "a"; rc_failed := false |}; {| rc_asked := 2; rc_bytes := "b"; rc_failed := false |};
   {| rc_asked := 1; rc_bytes := "c"; rc_failed := true |}] "".
Proof.
  change (token_from_key "secret" "abc") with (token_from_key "secret" (buffered [{| rc_asked := 3; rc_bytes := "a"; rc_failed := false |}; {| rc_asked := 2; rc_bytes := "b"; rc_failed := false |};
   {| rc_asked := 1; rc_bytes := "c"; rc_failed := true |}])).
  apply generates_token; [lia| |vm_compute; discriminate]. change (Z.to_nat 3) with 3.
  eapply loop_more; [lia|reflexivity|]. eapply loop_more; [cbn; lia|reflexivity|]. eapply loop_failed; [cbn; lia|reflexivity].
Qed.
