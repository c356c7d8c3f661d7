(** C83 for any number of calls, one after the other and concurrently. *)
From Verif.Model Require Import Server History Concurrent Owner.
From Verif.Spec Require Import TokenSpec ScopeSpec WireSpec RequestSpec ServerSpec HistorySpec LocalSpec ConcurrentSpec.
From Verif.Proof Require Import StrFacts ServerFacts Effects HistoryFacts LocalProofs ConcurrentProofs.

#[local] Open Scope string_scope.
#[local] Opaque do_op perform.

Lemma agree_trans s1 s2 s3 x : agree s1 s2 x -> agree s2 s3 x -> agree s1 s3 x.
Proof. destruct x; cbn; congruence. Qed.
Lemma agree_sym s1 s2 x : agree s1 s2 x -> agree s2 s1 x.
Proof. by destruct x. Qed.
Lemma agree_vacant s1 s2 x : agree s1 s2 x -> vacant s1 x -> vacant s2 x.
Proof. destruct x; cbn; congruence. Qed.

Lemma independent_sym s o1 o2 : independent s o1 o2 -> independent s o2 o1.
Proof. intros (A & B & C & D & E). unfold independent. repeat split; try done. intros x [H1 H2]. by apply (E x). Qed.

(** The answer of a call is not changed by one that is independent of it. *)
Lemma independent_answer s o o1 : independent s o o1 -> snd (do_op (fst (do_op s o)) o1) = snd (do_op s o1).
Proof. intros H. destruct (c83_commute _ _ _ H) as (t & E & _). by rewrite E. Qed.

Lemma op_config s o : sv_config (fst (do_op s o)) = sv_config s.
Proof. by destruct (op_local s s o eq_refl (fun x _ => agree_refl s x)) as (_ & _ & ? & _). Qed.

(** What a call has added it has given away. *)
Lemma new_given s o k sg : vacant s (rec k sg) -> vacant (fst (do_op s o)) (rec k sg) \/
  gives (server_secret s) (snd (do_op s o)) (rec k sg) \/ call_mentions (server_secret s) o (rec k sg).
Proof.
  intros Hv. apply vacant_cell in Hv. destruct (op_entries s s o eq_refl (fun x _ => agree_refl s x)) as (_ & _ & H).
  destruct (H k sg) as [[E _]|(ev & r & -> & [[E _]|[(c & G & _)|[(M & _)|(q & _ & _ & E & _)]]])].
  - left. apply vacant_cell. congruence.
  - left. apply vacant_cell. congruence.
  - by right; left.
  - by right; right.
  - left. apply vacant_cell. rewrite E, Hv. done.
Qed.
Lemma gives_kind secret a x : gives secret a x -> exists k sg, x = rec k sg.
Proof. intros (o & _ & H). destruct x as [id|n|sg|sg|sg]; try done; [exists KA, sg|exists KR, sg|exists KC, sg]; done. Qed.

Lemma new_code s ev r sg : vacant s (Code sg) -> vacant (fst (do_op s (Serve ev r))) (Code sg) \/
  gives (server_secret s) (snd (do_op s (Serve ev r))) (Code sg).
Proof.
  intros V. destruct (code_effect ev s r sg) as [(c & d & H & Hn & _)|[(_ & H & _)|(_ & _ & d & H & _)]].
  - right. cbn [do_op]. rewrite H. exists (OCode c). split; [done|]. cbn. by exists c.
  - left. cbn [do_op]. destruct (handle ev s r) as [s' o|s']; cbn in H |- *; congruence.
  - cbn in V. congruence.
Qed.
Lemma still_vacant s o1 o x : independent s o1 o -> gives (server_secret s) (snd (do_op s o)) x -> vacant (fst (do_op s o1)) x.
Proof.
  intros (A & B & C & D & E) G. pose proof (D _ G) as V. destruct (gives_kind _ _ _ G) as (k & sg & ->).
  destruct (op_entries s s o1 eq_refl (fun x _ => agree_refl s x)) as (_ & _ & H1).
  destruct (H1 k sg) as [[X _]|(ev & r & -> & [[X _]|[(c & G' & _)|[(M & _ & [->|X])|(q & _ & _ & X & _)]]])].
  - apply vacant_cell. apply vacant_cell in V. congruence.
  - apply vacant_cell. apply vacant_cell in V. congruence.
  - exfalso. by apply (E (rec k sg)).
  - destruct (new_code s ev r sg V) as [H|H]; [done|]. exfalso. by apply (E (Code sg)).
  - by apply vacant_cell.
  - apply vacant_cell. apply vacant_cell in V. by rewrite X, V.
Qed.

(** After a call that is independent of both, they are independent as before. *)
Lemma independent_after s o o1 o2 : independent s o o1 -> independent s o o2 -> independent s o1 o2 -> independent (fst (do_op s o)) o1 o2.
Proof.
  intros H1 H2 H. pose proof H1 as (A1 & B1 & _). pose proof H2 as (A2 & B2 & _). pose proof H as (A & B & C & D & E).
  assert (Ec : server_secret (fst (do_op s o)) = server_secret s) by (unfold server_secret; by rewrite op_config).
  unfold independent. cbv zeta. rewrite Ec, (independent_answer s o o1 H1), (independent_answer s o o2 H2).
  assert (L : forall o1 o2, independent s o o1 -> independent s o o2 -> independent s o1 o2 ->
    forall x, call_mentions (server_secret s) o1 x -> agree (fst (do_op s o)) (fst (do_op (fst (do_op s o)) o2)) x).
  { clear. intros o1 o2 (A1 & B1 & _) (A2 & B2 & _) (A & _) x Hx.
    destruct (op_local s (fst (do_op s o)) o2) as (_ & HA & _); [by rewrite op_config|done|].
    specialize (HA x (B1 x Hx)). apply (agree_trans _ s); [by apply agree_sym, B1|]. by apply (agree_trans _ (fst (do_op s o2))), HA; apply A. }
  split; [by apply L|]. split; [apply L; [done|done|by apply independent_sym]|].
  split; [intros x Hx; by apply (still_vacant s o o1)|]. split; [intros x Hx; by apply (still_vacant s o o2)|]. done.
Qed.

Fixpoint do_ops (s : server) (l : list op) : server * list History.answer :=
  match l with
  | [] => (s, [])
  | o :: rest => let '(s', xs) := do_ops (fst (do_op s o)) rest in (s', snd (do_op s o) :: xs)
  end.
Definition pairs (s : server) (l : list op) : Prop := ForallOrdPairs (independent s) l.

Lemma pairs_after s o l : pairs s (o :: l) -> pairs (fst (do_op s o)) l.
Proof.
  unfold pairs. intros H. inversion H as [|? ? HF HP]; subst. clear H. induction HP as [|o1 l H1 HP IH]; [constructor|].
  inversion HF; subst. constructor; [|by apply IH]. rewrite List.Forall_forall in *. intros o2 Ho2.
  apply independent_after; auto.
Qed.
Lemma do_ops_answers s l : pairs s l -> snd (do_ops s l) = map (fun o => snd (do_op s o)) l.
Proof.
  revert s. induction l as [|o l IH]; intros s H; [done|]. cbn. pose proof (IH _ (pairs_after _ _ _ H)) as E.
  destruct (do_ops (fst (do_op s o)) l) as [s' xs]. cbn [snd] in *. rewrite E. f_equal.
  apply List.map_ext_in. intros o1 Ho1. apply independent_answer. inversion H as [|? ? HF]; subst. rewrite List.Forall_forall in HF. by apply HF.
Qed.
Lemma pairs_perm s l l' : Permutation l l' -> pairs s l -> pairs s l'.
Proof.
  unfold pairs. induction 1 as [|o l l' HP IH|o o' l|l l' l'' HP1 IH1 HP2 IH2]; intros H; [done| | |auto].
  - inversion H; subst. constructor; [by eapply Permutation_Forall|auto].
  - inversion H as [|? ? HF HP]; subst. inversion HP as [|? ? HF' HP']; subst. inversion HF; subst.
    constructor; [constructor; [by apply independent_sym|done]|]. by constructor.
Qed.
Lemma do_ops_perm s l l' : Permutation l l' -> pairs s l -> fst (do_ops s l) = fst (do_ops s l').
Proof.
  intros HP. revert s. induction HP as [|o l l' HP IH|o o' l|l l' l'' HP1 IH1 HP2 IH2]; intros s H; [done| | |].
  - cbn. specialize (IH _ (pairs_after _ _ _ H)). destruct (do_ops _ l), (do_ops _ l'). done.
  - cbn. inversion H as [|? ? HF HP]; subst. inversion HF; subst. destruct (c83_commute s o' o) as (t & E1 & E2); [done|].
    rewrite E1, E2. cbn [fst]. by destruct (do_ops t l).
  - rewrite IH1 by done. apply IH2. by eapply pairs_perm.
Qed.

Lemma indexed_pairs s l : (forall i j o o', i <> j -> l !! i = Some o -> l !! j = Some o' -> independent s o o') -> pairs s l.
Proof.
  unfold pairs. induction l as [|o l IH]; intros H; constructor.
  - apply List.Forall_forall. intros o' Ho'. apply elem_of_list_In, elem_of_list_lookup in Ho' as [j Hj]. by apply (H 0 (S j)).
  - apply IH. intros i j a b Hne Ha Hb. apply (H (S i) (S j)); [congruence|done|done].
Qed.

(** The calls one after the other as a run. *)
Lemma run_do_ops s l t : History.run s l t -> do_ops s (map st_op (rev l)) = (t, map st_answer (rev l)).
Proof.
  assert (A : forall l1 l2 s, do_ops s (l1 ++ l2) = (fst (do_ops (fst (do_ops s l1)) l2), (snd (do_ops s l1) ++ snd (do_ops (fst (do_ops s l1)) l2))%list)).
  { induction l1 as [|o l1 IH]; intros l2 u; cbn; [by destruct (do_ops u l2)|]. rewrite IH. by destruct (do_ops (fst (do_op u o)) l1). }
  intros H. induction H as [|l0 t0 o H IH]; [done|]. cbn [rev]. rewrite !List.map_app, A, IH. cbn. done.
Qed.

Lemma c83_any_order : forall s l1 l2 t1 t2, History.run s l1 t1 -> History.run s l2 t2 -> Permutation (map st_op l1) (map st_op l2) ->
  (forall i j o o', i <> j -> map st_op l1 !! i = Some o -> map st_op l1 !! j = Some o' -> independent s o o') ->
  t1 = t2 /\ forall y, In y l1 \/ In y l2 -> st_answer y = snd (do_op s (st_op y)).
Proof.
  intros s l1 l2 t1 t2 R1 R2 HP HI%indexed_pairs. apply run_do_ops in R1, R2. rewrite List.map_rev in R1, R2.
  assert (P1 : pairs s (rev (map st_op l1))) by (eapply pairs_perm; [apply Permutation_rev|done]).
  assert (P12 : Permutation (rev (map st_op l1)) (rev (map st_op l2))).
  { etransitivity; [symmetry; apply Permutation_rev|]. etransitivity; [exact HP|]. apply Permutation_rev. }
  assert (P2 : pairs s (rev (map st_op l2))) by by eapply pairs_perm.
  split.
  - pose proof (do_ops_perm s _ _ P12 P1) as E. rewrite R1, R2 in E. exact E.
  - assert (A : forall l t, do_ops s (rev (map st_op l)) = (t, map st_answer (rev l)) -> pairs s (rev (map st_op l)) ->
      forall y, In y l -> st_answer y = snd (do_op s (st_op y))).
    { clear. intros l t R HP y Hy. pose proof (do_ops_answers _ _ HP) as E. rewrite R in E. cbn [snd] in E.
      rewrite <- !List.map_rev, List.map_map in E. apply in_rev in Hy. revert E Hy. generalize (rev l). clear. intros l E.
      induction l as [|z l IH]; [done|]. cbn in E. injection E as E1 E2. intros [->|Hy]; [done|by apply IH]. }
    intros y [Hy|Hy]; [exact (A l1 t1 R1 P1 y Hy)|exact (A l2 t2 R2 P2 y Hy)].
Qed.

(** ** Concurrent calls *)
Lemma one_by_one_ops s cs ops : map op_of cs = map Some ops ->
  fst (one_by_one s cs) = fst (do_ops s ops) /\ snd (one_by_one s cs) = zip_with written cs (snd (do_ops s ops)).
Proof.
  revert s ops. induction cs as [|c cs IH]; intros s [|o ops] H; try discriminate H; [done|]. cbn in H. injection H as Ho H.
  destruct (perform_op s c o Ho) as [E1 E2]. cbn. destruct (perform s c) as [s1 x]. cbn in E1, E2. subst s1 x.
  destruct (IH (fst (do_op s o)) ops H) as [I1 I2]. destruct (one_by_one _ cs), (do_ops _ ops). cbn in *. by subst.
Qed.
Lemma pick_perm calls order : Permutation order (seq 0 (length calls)) -> Permutation (pick calls order) calls.
Proof.
  assert (A : forall a b, Permutation a b -> Permutation (pick calls a) (pick calls b)).
  { induction 1 as [|i a b HP IH|i j a|a b c HP1 IH1 HP2 IH2]; [done| | |by etransitivity].
    - cbn. destruct (calls !! i); [by constructor|done].
    - cbn. destruct (calls !! i), (calls !! j); try done. constructor. }
  intros HP. etransitivity; [by apply A|]. clear. assert (E : pick calls (seq 0 (length calls)) = calls); [|by rewrite E].
  apply list_eq. intros k. rewrite pick_lookup.
  2:{ intros j Hj. apply lookup_lt_is_Some. apply in_seq in Hj. lia. }
  destruct (decide (k < length calls)) as [H|H].
  - by rewrite lookup_seq_lt.
  - rewrite lookup_seq_ge by lia. symmetry. apply lookup_ge_None. lia.
Qed.

Lemma c83_concurrent : forall m s calls w,
  (forall c, In c calls -> op_of c <> None) ->
  (forall i j c d o o', i <> j -> calls !! i = Some c -> calls !! j = Some d -> op_of c = Some o -> op_of d = Some o' -> independent s o o') ->
  holds m s -> reaches (start m calls) w -> all_ended w ->
  (forall i c, calls !! i = Some c -> ended w i (snd (perform s c))) /\
  holds (wo_mem w) (fst (one_by_one s calls)).
Proof.
  intros m s calls w Hop Hind Hm HR Ha. destruct (c53_linearizable _ _ _ _ Hm HR Ha) as (HP & Hm' & Hr).
  assert (X : forall cs, (forall c, In c cs -> op_of c <> None) -> exists ops, map op_of cs = map Some ops).
  { clear. induction cs as [|c cs IH]; intros H; [by exists []|]. destruct (op_of c) as [o|] eqn:E; [|by destruct (H c (or_introl eq_refl))].
    destruct IH as [ops Hops]; [intros d Hd; apply H; by right|]. exists (o :: ops). cbn. by rewrite E, Hops. }
  destruct (X calls Hop) as [ops Hops]. pose proof (pick_perm _ _ HP) as HPP.
  destruct (X (pick calls (wo_order w))) as [ops' Hops']; [intros c Hc; apply Hop; by eapply pick_in|].
  assert (PP : Permutation ops' ops).
  { apply (Permutation_map op_of) in HPP. rewrite Hops, Hops' in HPP.
    assert (I : forall l : list op, List.flat_map (fun x : option op => match x with Some o => [o] | None => [] end) (map Some l) = l).
    { clear. induction l as [|a l IH]; [done|]. cbn. by rewrite IH. }
    rewrite <- (I ops), <- (I ops'). by apply Permutation_flat_map. }
  assert (Ppairs : pairs s ops).
  { apply indexed_pairs. intros i j o o' Hne Hi Hj.
    assert (Y : forall i o, ops !! i = Some o -> exists c, calls !! i = Some c /\ op_of c = Some o).
    { clear -Hops. intros i o H. assert (E : map op_of calls !! i = map Some ops !! i) by by rewrite Hops.
      rewrite !list_lookup_fmap, H in E. destruct (calls !! i) as [c|]; [|done]. exists c. cbn in E. by injection E. }
    destruct (Y i o Hi) as (c & Hc & Ho). destruct (Y j o' Hj) as (d & Hd & Ho'). by apply (Hind i j c d). }
  assert (Ppairs' : pairs s ops') by (eapply pairs_perm; [symmetry; exact PP|done]).
  destruct (one_by_one_ops s _ _ Hops) as [E1 _]. destruct (one_by_one_ops s _ _ Hops') as [E1' E2'].
  split.
  - intros i c Hc.
    assert (Hin : In i (wo_order w)).
    { apply (Permutation_in _ (Permutation_sym HP)), in_seq. apply lookup_lt_Some in Hc. lia. }
    apply elem_of_list_In, elem_of_list_lookup in Hin as [n Hn]. destruct (Hr n i Hn) as (v & Hv & He).
    rewrite E2' in Hv. apply lookup_zip_with_Some in Hv as (c' & a & -> & Hc' & Ha').
    pose proof Hc' as Hpick. rewrite pick_lookup, Hn, Hc in Hc' by by apply perm_known. injection Hc' as <-.
    rewrite do_ops_answers, list_lookup_fmap in Ha' by done.
    assert (E : map op_of (pick calls (wo_order w)) !! n = map Some ops' !! n) by by rewrite Hops'.
    rewrite !list_lookup_fmap, Hpick in E. destruct (ops' !! n) as [o|]; [|done]. cbn in E, Ha'. injection E as E. injection Ha' as <-.
    destruct (perform_op s c o E) as [_ ->]. exact He.
  - rewrite E1' in Hm'. rewrite E1, (do_ops_perm s ops ops'); [done|by symmetry|done].
Qed.
