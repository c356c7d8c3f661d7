(** The concrete calls of ClockCases.v. *)
From Verif.Model Require Import Clock.
From Verif.Spec Require Import TimeSpec RequestSpec Cases ClockSpec ClockCases.

Definition ordinaryb (x : clock * Z) : bool :=
  let m w := (-2682288000 * 1000000000 <=? w)%Z && (w <? 5907646592 * 1000000000)%Z in
  let i z := (-9223372036854775808 <=? z)%Z && (z <=? 9223372036854775807)%Z in
  m (ck_wall (fst x)) && m (ck_wall (fst x) + snd x)%Z &&
  i (ck_mono (fst x)) && i (snd x) && i (ck_mono (fst x) + snd x)%Z.
Lemma ordinaryb_ok x : ordinaryb x = true -> ordinary x.
Proof. unfold ordinaryb, ordinary, modern, int64. rewrite !andb_true_iff, !Z.leb_le, !Z.ltb_lt. lia. Qed.
Lemma ordinary_calls cfg l : forallb (fun o => forallb ordinaryb (readings cfg o)) l = true ->
  List.Forall (fun o => List.Forall ordinary (readings cfg o)) l.
Proof.
  intros H. apply List.Forall_forall. intros o Ho. apply List.Forall_forall. intros x Hx.
  apply ordinaryb_ok. rewrite forallb_forall in H. specialize (H o Ho). rewrite forallb_forall in H. by apply H.
Qed.
Definition in_stepb (k : Z) (x : clock * Z) : bool :=
  let c w := (-4000000000000000000 * 1000000000 <=? w)%Z && (w <=? 4000000000000000000 * 1000000000)%Z in
  let i z := (-9223372036854775808 <=? z)%Z && (z <=? 9223372036854775807)%Z in
  (ck_wall (fst x) =? ck_mono (fst x) + k)%Z && c (ck_wall (fst x)) && i (ck_mono (fst x)) && i (snd x).
Lemma in_stepb_ok k x : in_stepb k x = true -> in_step k x.
Proof. unfold in_stepb, in_step, calendar, int64. rewrite !andb_true_iff, !Z.leb_le, Z.eqb_eq. lia. Qed.
Lemma in_step_calls k cfg l : forallb (fun o => forallb (in_stepb k) (readings cfg o)) l = true ->
  List.Forall (fun o => List.Forall (in_step k) (readings cfg o)) l.
Proof.
  intros H. apply List.Forall_forall. intros o Ho. apply List.Forall_forall. intros x Hx.
  apply in_stepb_ok. rewrite forallb_forall in H. specialize (H o Ho). rewrite forallb_forall in H. by apply H.
Qed.

Lemma clock_ordinary_ahead : List.Forall (fun o => List.Forall ordinary (readings case_config o)) (clock_calls 7200).
Proof. apply ordinary_calls. vm_compute. reflexivity. Qed.
Lemma clock_ordinary_back : List.Forall (fun o => List.Forall ordinary (readings case_config o)) (clock_calls (-7200)).
Proof. apply ordinary_calls. vm_compute. reflexivity. Qed.
Lemma clock_in_step : List.Forall (fun o => List.Forall (in_step (1599999700 * second)) (readings case_config o)) (clock_calls 0).
Proof. apply in_step_calls. vm_compute. reflexivity. Qed.
Lemma clock_same_any a b : List.Forall2 same_stopwatch (clock_calls a) (clock_calls b).
Proof. unfold clock_calls. generalize clock_token. intros t. repeat apply List.Forall2_cons; [unfold same_stopwatch; reflexivity..|apply List.Forall2_nil]. Qed.
Lemma clock_same : List.Forall2 same_stopwatch (clock_calls 7200) (clock_calls (-7200)).
Proof. exact (clock_same_any _ _). Qed.
Lemma clock_answers :
  decisions (snd (t_do_ops (t_new_server case_config) (clock_calls 7200))) =
    [(None, 0); (None, 0); (None, 0); (Some true, 0); (None, 1600003600); (Some false, 0)]%Z.
Proof. vm_compute. reflexivity. Qed.
