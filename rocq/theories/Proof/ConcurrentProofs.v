(** C53: concurrent calls. *)
From Coq Require Import Wellfounded.
From Verif.Model Require Import Server History Concurrent Owner.
From Verif.Spec Require Import ServerSpec ConcurrentSpec.
From Verif.Proof Require Import ConcurrentWp ConcurrentHandlers.
#[local] Opaque body_prog perform.

(** ** One call after the other *)

Lemma one_by_one_snoc s cs c :
  one_by_one s (cs ++ [c]) =
  (fst (perform (fst (one_by_one s cs)) c), snd (one_by_one s cs) ++ [snd (perform (fst (one_by_one s cs)) c)]).
Proof.
  revert s. induction cs as [|d cs IH]; intros s; cbn.
  - by destruct (perform s c).
  - destruct (perform s d) as [s1 x]. rewrite IH. by destruct (one_by_one s1 cs).
Qed.
Lemma one_by_one_length s cs : length (snd (one_by_one s cs)) = length cs.
Proof.
  revert s. induction cs as [|d cs IH]; intros s; cbn; [done|].
  destruct (perform s d) as [s1 x]. specialize (IH s1). destruct (one_by_one s1 cs). cbn in *. by rewrite IH.
Qed.
Lemma pick_snoc calls l i c : calls !! i = Some c -> pick calls (l ++ [i]) = pick calls l ++ [c].
Proof.
  intros Hc. induction l as [|j l IH]; cbn.
  - by rewrite Hc.
  - rewrite IH. by destruct (calls !! j).
Qed.
Lemma pick_length calls l : (forall i, In i l -> is_Some (calls !! i)) -> length (pick calls l) = length l.
Proof.
  induction l as [|j l IH]; intros H; cbn; [done|].
  destruct (H j) as [c ->]; [by left|]. cbn. rewrite IH; [done|]. intros i Hi. apply H. by right.
Qed.

(** ** The invariant *)

(** The state of goroutine [i] that is done, with its place in the order. *)
Definition outcomes_ok (ts : list (prog reply)) (order : list nat) (xs : list (option reply)) : Prop :=
  forall n i, order !! n = Some i -> exists v, xs !! n = Some v /\
    ts !! i = Some (match v with Some a => PRet a | None => PPanic end).

Definition others_wait (calls : list call) (ts : list (prog reply)) (order : list nat) : Prop :=
  forall i c, calls !! i = Some c -> ~ In i order -> ts !! i = Some (call_prog c).

Inductive good (s0 : server) (calls : list call) : world -> Prop :=
| good_free m ts order :
    length ts = length calls -> NoDup order -> (forall i, In i order -> is_Some (calls !! i)) ->
    holds m (fst (one_by_one s0 (pick calls order))) ->
    outcomes_ok ts order (snd (one_by_one s0 (pick calls order))) ->
    others_wait calls ts order ->
    good s0 calls {| wo_mem := m; wo_locked := false; wo_threads := ts; wo_order := order |}
| good_held m ts order i c p :
    length ts = length calls -> NoDup (order ++ [i]) -> (forall j, In j (order ++ [i]) -> is_Some (calls !! j)) ->
    calls !! i = Some c ->
    ts !! i = Some (defer_unlock p) ->
    wp p m (fun m' x => holds m' (fst (perform (fst (one_by_one s0 (pick calls order))) c)) /\
                        x = snd (perform (fst (one_by_one s0 (pick calls order))) c)) ->
    outcomes_ok ts order (snd (one_by_one s0 (pick calls order))) ->
    others_wait calls ts (order ++ [i]) ->
    good s0 calls {| wo_mem := m; wo_locked := true; wo_threads := ts; wo_order := order ++ [i] |}.

Lemma good_free_inv s0 calls m ts order :
  good s0 calls {| wo_mem := m; wo_locked := false; wo_threads := ts; wo_order := order |} ->
  length ts = length calls /\ NoDup order /\ (forall i, In i order -> is_Some (calls !! i)) /\
  holds m (fst (one_by_one s0 (pick calls order))) /\
  outcomes_ok ts order (snd (one_by_one s0 (pick calls order))) /\ others_wait calls ts order.
Proof. intros G. by inversion G. Qed.
Lemma good_held_inv s0 calls m ts order i :
  good s0 calls {| wo_mem := m; wo_locked := true; wo_threads := ts; wo_order := order ++ [i] |} ->
  length ts = length calls /\ NoDup (order ++ [i]) /\ (forall j, In j (order ++ [i]) -> is_Some (calls !! j)) /\
  exists c p, calls !! i = Some c /\ ts !! i = Some (defer_unlock p) /\
    wp p m (fun m' x => holds m' (fst (perform (fst (one_by_one s0 (pick calls order))) c)) /\
                        x = snd (perform (fst (one_by_one s0 (pick calls order))) c)) /\
    outcomes_ok ts order (snd (one_by_one s0 (pick calls order))) /\ others_wait calls ts (order ++ [i]).
Proof.
  intros G. inversion G as [|m' ts' order' i' c p Hl Hn Hi Hc Hq Hwp Ho Hw Em].
  subst. match goal with E : _ ++ [_] = _ ++ [_] |- _ => apply app_inj_tail in E as [-> ->] end. split; [done|]. split; [done|]. split; [done|]. by exists c, p.
Qed.

Lemma start_good m s calls : holds m s -> good s calls (start m calls).
Proof.
  intros H. apply good_free.
  - apply map_length.
  - constructor.
  - done.
  - done.
  - intros n i. by rewrite lookup_nil.
  - intros i c Hc _. rewrite list_lookup_fmap. by rewrite Hc.
Qed.

Lemma out_not_access {A} m (v : option A) m' p' : ~ access m (match v with Some a => PRet a | None => PPanic end) m' p'.
Proof. intros H. destruct v; inversion H. Qed.

Lemma thread_cases s0 calls w i p : good s0 calls w -> wo_threads w !! i = Some p ->
  (exists v, p = match v with Some a => PRet a | None => PPanic end) \/
  (exists c, calls !! i = Some c /\ p = call_prog c /\ ~ In i (wo_order w)) \/
  (wo_locked w = true /\ exists order, wo_order w = order ++ [i]).
Proof.
  intros G Hp. destruct G as [m ts order Hl Hn Hi Hh Ho Hw|m ts order j c q Hl Hn Hi Hc Hq Hwp Ho Hw]; cbn in *.
  - destruct (in_dec Nat.eq_dec i order) as [Hin|Hin].
    + left. apply elem_of_list_In, elem_of_list_lookup in Hin as [n Hin]. destruct (Ho n i Hin) as (v & _ & Hv).
      exists v. congruence.
    + right. left. assert (is_Some (calls !! i)) as [c Hc].
      { apply lookup_lt_is_Some. rewrite <- Hl. apply lookup_lt_is_Some. eauto. }
      exists c. split; [done|]. split; [|done]. specialize (Hw i c Hc Hin). congruence.
  - destruct (decide (i = j)) as [->|Hij]; [right; right; split; [done|]; by exists order|].
    destruct (in_dec Nat.eq_dec i order) as [Hin|Hin].
    + left. apply elem_of_list_In, elem_of_list_lookup in Hin as [n Hin]. destruct (Ho n i Hin) as (v & _ & Hv).
      exists v. congruence.
    + right. left. assert (is_Some (calls !! i)) as [c' Hc'].
      { apply lookup_lt_is_Some. rewrite <- Hl. apply lookup_lt_is_Some. eauto. }
      assert (Hin' : ~ In i (order ++ [j])). { rewrite in_app_iff. intros [?|[?|[]]]; congruence. }
      exists c'. split; [done|]. split; [|done]. specialize (Hw i c' Hc' Hin'). congruence.
Qed.

Lemma nodup_snoc (order : list nat) i : NoDup order -> ~ In i order -> NoDup (order ++ [i]).
Proof.
  intros H1 H2. apply NoDup_app. split; [done|]. split; [|apply NoDup_singleton].
  intros x Hx Hx'. apply elem_of_list_singleton in Hx' as ->. by apply H2, elem_of_list_In.
Qed.
Lemma nodup_snoc_inv (order : list nat) i : NoDup (order ++ [i]) -> NoDup order /\ ~ In i order.
Proof.
  intros H. apply NoDup_app in H as (H1 & H2 & _). split; [done|]. intros Hi. apply elem_of_list_In in Hi.
  apply (H2 i Hi). by left.
Qed.

Lemma good_step s0 calls w i w' : good s0 calls w -> wstep i w w' -> good s0 calls w'.
Proof.
  intros G St. destruct St as [m b ts order p m' p' Hp Ha|m ts order p Hp|m ts order p Hp].
  - destruct (thread_cases _ _ _ _ _ G Hp) as [[v ->]|[(c & _ & -> & _)|[Hb (order' & Ho)]]].
    + by apply out_not_access in Ha.
    + inversion Ha.
    + cbn in Hb, Ho. subst b. subst order. apply good_held_inv in G as (Hl & Hn & Hi & c & q & Hc & Hq & Hwp & Hout & Hw).
      rewrite Hq in Hp. injection Hp as <-.
      destruct (over q) eqn:Eo.
      { destruct q; try discriminate; inversion Ha. }
      destruct (defer_access _ _ _ _ Eo Ha) as (q' & Ha' & ->).
      apply (good_held s0 calls m' _ order' i c q'); try done.
      * by rewrite insert_length.
      * rewrite list_lookup_insert; [done|]. apply lookup_lt_is_Some. eauto.
      * by apply (wp_access _ _ _ _ _ Ha').
      * intros n j Hj. destruct (Hout n j Hj) as (v & Hv & Ht). exists v. split; [done|].
        rewrite list_lookup_insert_ne; [done|]. intros ->. apply nodup_snoc_inv in Hn as [_ Hn]. apply Hn.
        apply elem_of_list_In. by eapply elem_of_list_lookup_2.
      * intros j d Hj Hnj. rewrite list_lookup_insert_ne; [by apply Hw|]. intros ->. apply Hnj. apply in_app_iff. right. by left.
  - destruct (thread_cases _ _ _ _ _ G Hp) as [[v E]|[(c & Hc & Hpc & Hni)|[Hb _]]]; [by destruct v| |done].
    cbn in Hni. unfold call_prog in Hpc. injection Hpc as ->.
    apply good_free_inv in G as (Hl & Hn & Hi & Hh & Hout & Hw).
    apply (good_held s0 calls m _ order i c (body_prog c)); try done.
    + by rewrite insert_length.
    + by apply nodup_snoc.
    + intros j. rewrite in_app_iff. intros [?|[<-|[]]]; eauto.
    + rewrite list_lookup_insert; [done|]. apply lookup_lt_is_Some. eauto.
    + by apply body_wp.
    + intros n j Hj. destruct (Hout n j Hj) as (v & Hv & Ht). exists v. split; [done|].
      rewrite list_lookup_insert_ne; [done|]. intros ->. apply Hni. apply elem_of_list_In. by eapply elem_of_list_lookup_2.
    + intros j d Hj Hnj. rewrite list_lookup_insert_ne; [apply Hw; [done|]|].
      * intros ?. apply Hnj. apply in_app_iff. by left.
      * intros ->. apply Hnj. apply in_app_iff. right. by left.
  - destruct (thread_cases _ _ _ _ _ G Hp) as [[v E]|[(c & Hc & Hpc & Hni)|[Hb (order' & Ho)]]]; [by destruct v|done|].
    cbn in Ho. subst order. apply good_held_inv in G as (Hl & Hn & Hi & c & q & Hc & Hq & Hwp & Hout & Hw).
    rewrite Hq in Hp.
    assert (Hv : exists v, q = (match v with Some a => PRet a | None => PPanic end) /\ p = match v with Some a => PRet a | None => PPanic end).
    { destruct q as [a| | | | | | | | | | | | | | | | | ]; cbn in Hp; try discriminate; try (by destruct Hwp).
      - injection Hp as <-. by exists (Some a).
      - injection Hp as <-. by exists None. }
    destruct Hv as (v & -> & ->).
    assert (Hwp' : holds m (fst (perform (fst (one_by_one s0 (pick calls order'))) c)) /\ v = snd (perform (fst (one_by_one s0 (pick calls order'))) c)).
    { by destruct v. }
    destruct Hwp' as [Hh Hv]. clear Hwp. apply good_free; try done.
    + by rewrite insert_length.
    + rewrite (pick_snoc _ _ _ _ Hc), one_by_one_snoc. exact Hh.
    + rewrite (pick_snoc _ _ _ _ Hc), one_by_one_snoc. cbn [snd]. intros n j Hj.
      assert (Hlen : length (snd (one_by_one s0 (pick calls order'))) = length order').
      { rewrite one_by_one_length. apply pick_length. intros k Hk. apply Hi. apply in_app_iff. by left. }
      apply lookup_app_Some in Hj as [Hj|[Hlt Hj]].
      * destruct (Hout n j Hj) as (v' & Hv' & Ht). exists v'. split; [by apply lookup_app_l_Some|].
        rewrite list_lookup_insert_ne; [done|]. intros ->. apply nodup_snoc_inv in Hn as [_ Hn]. apply Hn.
        apply elem_of_list_In. by eapply elem_of_list_lookup_2.
      * apply list_lookup_singleton_Some in Hj as [Hz ->]. exists v. split.
        -- rewrite lookup_app_r by lia. rewrite Hlen, Hz. cbn. by rewrite Hv.
        -- rewrite list_lookup_insert; [done|]. apply lookup_lt_is_Some. eauto.
    + intros j d Hj Hnj. rewrite list_lookup_insert_ne; [by apply Hw|]. intros ->. apply Hnj. apply in_app_iff. right. by left.
Qed.

Lemma good_reaches s0 calls w w' : good s0 calls w -> reaches w w' -> good s0 calls w'.
Proof. intros G R. induction R as [|w1 w2 w3 i R IH St]; [done|]. eapply good_step; [|exact St]. by apply IH. Qed.

(** ** C53 *)

Lemma defer_not_over {A} (p : prog A) (v : option A) :
  defer_unlock p <> match v with Some a => PRet a | None => PPanic end.
Proof. by destruct p, v. Qed.

Lemma good_replies s0 calls w n i v : good s0 calls w ->
  wo_order w !! n = Some i -> ended w i v ->
  snd (one_by_one s0 (pick calls (wo_order w))) !! n = Some v.
Proof.
  intros G Hn Hv. unfold ended in Hv.
  destruct G as [m ts order Hl Hnd Hi Hh Ho Hw|m ts order j c p Hl Hnd Hi Hc Hq Hwp Ho Hw]; cbn in *.
  - destruct (Ho n i Hn) as (v' & Hv' & Ht). rewrite Hv'. f_equal. rewrite Hv in Ht. destruct v, v'; congruence.
  - apply lookup_app_Some in Hn as [Hn|[Hlt Hn]].
    + destruct (Ho n i Hn) as (v' & Hv' & Ht). rewrite (pick_snoc _ _ _ _ Hc), one_by_one_snoc. cbn [snd].
      rewrite (lookup_app_l_Some _ _ _ _ Hv'). f_equal. rewrite Hv in Ht. destruct v, v'; congruence.
    + apply list_lookup_singleton_Some in Hn as [_ ->]. rewrite Hq in Hv. injection Hv as Hv. by apply defer_not_over in Hv.
Qed.

Lemma c53_replies : forall m s calls w n i v,
  holds m s -> reaches (start m calls) w ->
  wo_order w !! n = Some i -> ended w i v ->
  snd (one_by_one s (pick calls (wo_order w))) !! n = Some v.
Proof. intros m s calls w n i v H R. apply good_replies. eapply good_reaches; [|exact R]. by apply start_good. Qed.

Lemma c53_memory : forall m s calls w,
  holds m s -> reaches (start m calls) w -> wo_locked w = false ->
  holds (wo_mem w) (fst (one_by_one s (pick calls (wo_order w)))).
Proof.
  intros m s calls w H R Hf. assert (G : good s calls w) by (eapply good_reaches; [|exact R]; by apply start_good).
  by destruct G.
Qed.

Lemma good_ended_order s0 calls w i v : good s0 calls w -> ended w i v -> In i (wo_order w).
Proof.
  intros G Hv. unfold ended in Hv.
  assert (Hlen : i < length (wo_threads w)) by (apply lookup_lt_is_Some; eauto).
  destruct (in_dec Nat.eq_dec i (wo_order w)) as [Hin|Hin]; [done|exfalso].
  destruct (thread_cases _ _ _ _ _ G Hv) as [_|[(c & _ & E & _)|[_ (order & E)]]].
  - destruct G as [m ts order Hl Hnd Hi Hh Ho Hw|m ts order j c p Hl Hnd Hi Hc Hq Hwp Ho Hw]; cbn in *;
      (assert (is_Some (calls !! i)) as [c' Hc'] by (apply lookup_lt_is_Some; lia));
      specialize (Hw i c' Hc' Hin); rewrite Hv in Hw; by destruct v.
  - by destruct v.
  - apply Hin. rewrite E. apply in_app_iff. right. by left.
Qed.

Lemma c53_released : forall m s calls w,
  holds m s -> reaches (start m calls) w -> wo_locked w = true ->
  exists i w', last (wo_order w) = Some i /\ (forall v, ~ ended w i v) /\ wstep i w w'.
Proof.
  intros m s calls w H R Hf. assert (G : good s calls w) by (eapply good_reaches; [|exact R]; by apply start_good).
  destruct G as [m' ts order Hl Hnd Hi Hh Ho Hw|m' ts order j c p Hl Hnd Hi Hc Hq Hwp Ho Hw]; [done|]. cbn.
  assert (Hst : exists w', wstep j {| wo_mem := m'; wo_locked := true; wo_threads := ts; wo_order := order ++ [j] |} w').
  { destruct (wp_progress _ _ _ Hwp) as [Ho'|(m2 & p2 & Ha)].
    - destruct p as [a| | | | | | | | | | | | | | | | |]; try discriminate.
      + eexists. apply (ws_unlock j m' ts _ (PRet a)). exact Hq.
      + eexists. apply (ws_unlock j m' ts _ PPanic). exact Hq.
    - eexists. eapply ws_access; [exact Hq|]. by apply access_defer. }
  destruct Hst as [w' Hst]. exists j, w'. split; [by rewrite last_snoc|]. split; [|done].
  intros v Hv. unfold ended in Hv. cbn in Hv. rewrite Hq in Hv. injection Hv as Hv. by apply defer_not_over in Hv.
Qed.

Lemma c53_no_deadlock : forall m s calls w,
  holds m s -> reaches (start m calls) w ->
  all_ended w /\ wo_locked w = false \/ exists i w', wstep i w w'.
Proof.
  intros m s calls w H R. destruct (wo_locked w) eqn:El.
  { destruct (c53_released _ _ _ _ H R El) as (i & w' & _ & _ & St). right. eauto. }
  assert (G : good s calls w) by (eapply good_reaches; [|exact R]; by apply start_good).
  destruct (decide (Forall (fun p => over p = true) (wo_threads w))) as [Ha|Hn].
  - left. split; [|done]. intros i Hi. apply lookup_lt_is_Some in Hi as [p Hp]. rewrite Forall_lookup in Ha.
    specialize (Ha i p Hp). unfold ended. rewrite Hp.
    destruct p as [a| | | | | | | | | | | | | | | | |]; try discriminate; [by exists (Some a)|by exists None].
  - right. apply not_Forall_Exists in Hn; [|intros p; destruct (over p); [by left|by right]].
    apply Exists_exists in Hn as (p & Hp & Ho). apply elem_of_list_lookup in Hp as [i Hp].
    destruct (thread_cases _ _ _ _ _ G Hp) as [[v ->]|[(c & _ & -> & _)|[Hb _]]]; [destruct v; by destruct Ho| |congruence].
    destruct w as [wm wl wt wo]. cbn in *. subst wl. do 2 eexists. apply ws_lock. exact Hp.
Qed.

Lemma good_order_perm s0 calls w : good s0 calls w -> all_ended w ->
  Permutation (wo_order w) (seq 0 (length calls)).
Proof.
  intros G Ha. assert (Hl : length (wo_threads w) = length calls) by by destruct G.
  assert (Hnd : NoDup (wo_order w)) by by destruct G.
  assert (Hi : forall i, In i (wo_order w) -> is_Some (calls !! i)) by by destruct G.
  apply NoDup_Permutation; [done|apply NoDup_seq|]. intros i. rewrite !elem_of_list_In, in_seq. split.
  - intros H. apply Hi in H. apply lookup_lt_is_Some in H. lia.
  - intros [_ H]. destruct (Ha i) as [v Hv]; [lia|]. by eapply good_ended_order.
Qed.

Lemma c53_linearizable : forall m s calls w,
  holds m s -> reaches (start m calls) w -> all_ended w ->
  Permutation (wo_order w) (seq 0 (length calls)) /\
  holds (wo_mem w) (fst (one_by_one s (pick calls (wo_order w)))) /\
  (forall n i, wo_order w !! n = Some i ->
     exists v, snd (one_by_one s (pick calls (wo_order w))) !! n = Some v /\ ended w i v).
Proof.
  intros m s calls w H R Ha. assert (G : good s calls w) by (eapply good_reaches; [|exact R]; by apply start_good).
  assert (Hf : wo_locked w = false).
  { destruct (wo_locked w) eqn:El; [|done]. exfalso. destruct (c53_released _ _ _ _ H R El) as (i & w' & _ & Hn & St).
    destruct (Ha i) as [v Hv]; [|by apply (Hn v)]. destruct St as [? ? ? ? ? ? ? Hp|? ? ? ? Hp|? ? ? ? Hp]; cbn;
      apply lookup_lt_is_Some; eauto. }
  split; [by eapply good_order_perm|]. split; [by eapply c53_memory|].
  intros n i Hn. destruct (Ha i) as [v Hv].
  - assert (Hi : is_Some (calls !! i)). { destruct G as [? ? ? ? ? Hi|? ? ? ? ? ? ? ? Hi]; apply Hi; apply elem_of_list_In; by eapply elem_of_list_lookup_2. }
    apply lookup_lt_is_Some in Hi. replace (length (wo_threads w)) with (length calls); [done|]. by destruct G.
  - exists v. split; [|done]. by eapply c53_replies.
Qed.

(** Only the goroutine that holds the mutex touches shared memory. *)
Lemma c53_exclusive : forall m s calls w i,
  holds m s -> reaches (start m calls) w -> about_to_access w i ->
  wo_locked w = true /\ last (wo_order w) = Some i.
Proof.
  intros m s calls w i H R (p & m' & p' & Hp & Ha).
  assert (G : good s calls w) by (eapply good_reaches; [|exact R]; by apply start_good).
  destruct (thread_cases _ _ _ _ _ G Hp) as [[v ->]|[(c & _ & -> & _)|[Hb (order' & Ho)]]].
  - by apply out_not_access in Ha.
  - inversion Ha.
  - split; [done|]. by rewrite Ho, last_snoc.
Qed.

(** ** Every schedule ends *)

Definition sub {A} (q p : prog A) : Prop :=
  match p with
  | PRet _ | PPanic => False
  | PLookup _ _ f => exists x, q = f x
  | PInsert _ _ _ r | PDelete _ _ r | PUse _ r | PSetClient _ _ r | PSetUser _ _ r | PSetConfig _ r | PWait _ r | PLock r | PUnlock r => q = r
  | PKeys _ f => exists x, q = f x
  | PNew _ f => exists x, q = f x
  | PLoad _ f => exists x, q = f x
  | PClient _ f => exists x, q = f x
  | PUser _ f => exists x, q = f x
  | PConfig f => exists x, q = f x
  end.
Lemma sub_wf {A} : well_founded (@sub A).
Proof.
  intros p. induction p; constructor; intros q Hq; cbn in Hq;
    first [contradiction | (subst q; assumption) | (destruct Hq as [x ->]; match goal with IH : forall y, Acc _ _ |- _ => apply IH end)].
Qed.
Lemma access_sub {A} m (p : prog A) m' p' : access m p m' p' -> sub p' p.
Proof. intros H. destruct H; cbn; eauto. Qed.

Inductive list_sub {A} : list (prog A) -> list (prog A) -> Prop :=
| list_sub_here q p ts : sub q p -> list_sub (q :: ts) (p :: ts)
| list_sub_later p ts' ts : list_sub ts' ts -> list_sub (p :: ts') (p :: ts).
Lemma list_sub_wf {A} : well_founded (@list_sub A).
Proof.
  intros ts. induction ts as [|p ts IH]; [constructor; intros ? H; inversion H|].
  revert ts IH. induction (sub_wf p) as [p _ IHp]. intros ts Hts. induction Hts as [ts Hts IHts].
  constructor. intros ts' H. inversion H; subst.
  - apply IHp; [done|]. by constructor.
  - by apply IHts.
Qed.
Lemma insert_list_sub {A} (ts : list (prog A)) i p q : ts !! i = Some p -> sub q p -> list_sub (<[i := q]> ts) ts.
Proof.
  revert i. induction ts as [|r ts IH]; intros i Hi Hs; [done|]. destruct i as [|i]; cbn in *.
  - injection Hi as ->. by constructor.
  - constructor. by apply IH.
Qed.
Lemma wstep_sub i w w' : wstep i w w' -> list_sub (wo_threads w') (wo_threads w).
Proof.
  intros St. destruct St as [m b ts order p m' p' Hp Ha|m ts order p Hp|m ts order p Hp]; cbn.
  - eapply insert_list_sub; [exact Hp|]. by eapply access_sub.
  - by eapply insert_list_sub.
  - by eapply insert_list_sub.
Qed.
Lemma c53_terminates : forall w : world, Acc (fun w2 w1 => exists i, wstep i w1 w2) w.
Proof.
  intros w. remember (wo_threads w) as ts eqn:E. revert w E. induction (list_sub_wf ts) as [ts _ IH]. intros w ->.
  constructor. intros w' [i St]. eapply IH; [|reflexivity]. by eapply wstep_sub.
Qed.

Lemma reaches_trans w1 w2 w3 : reaches w1 w2 -> reaches w2 w3 -> reaches w1 w3.
Proof. intros H1 H2. induction H2 as [|a b c i R IH St]; [done|]. exact (reaches_step _ _ _ i (IH H1) St). Qed.

(** Hence from every reachable moment every schedule, continued as long as
    some goroutine can go on, leads to the end of all calls. *)
Lemma c53_completes : forall m s calls w,
  holds m s -> reaches (start m calls) w -> exists w', reaches w w' /\ all_ended w'.
Proof.
  intros m s calls w H. induction (c53_terminates w) as [w _ IH]. intros R.
  destruct (c53_no_deadlock _ _ _ _ H R) as [[Ha _]|(i & w' & St)].
  - exists w. split; [constructor|done].
  - destruct (IH w') as (w2 & R2 & Ha); [by exists i|by eapply reaches_step|]. exists w2. split; [|done].
    eapply reaches_trans; [|exact R2]. eapply reaches_step; [constructor|exact St].
Qed.

(** ** Real time *)

Lemma order_grows w w' : reaches w w' -> exists more, wo_order w' = wo_order w ++ more.
Proof.
  intros R. induction R as [w|w1 w2 w3 i R IH St]; [exists []; by rewrite app_nil_r|].
  destruct IH as [more E]. destruct St as [m b ts order p m' p' Hp Ha|m ts order p Hp|m ts order p Hp]; cbn in *; eauto.
  exists (more ++ [i]). by rewrite E, app_assoc.
Qed.

Lemma c53_real_time : forall m s calls w w' i j v,
  holds m s -> reaches (start m calls) w -> reaches w w' ->
  ended w i v -> waiting calls w j -> In j (wo_order w') -> before (wo_order w') i j.
Proof.
  intros m s calls w w' i j v H R R' Hi (c & Hc & Hj) Hin.
  assert (G : good s calls w) by (eapply good_reaches; [|exact R]; by apply start_good).
  pose proof (good_ended_order _ _ _ _ _ G Hi) as Hio.
  assert (Hjo : ~ In j (wo_order w)).
  { intros Hjo. destruct (thread_cases _ _ _ _ _ G Hj) as [[v' E]|[(c' & _ & _ & Hn)|[Hb (order & Ho)]]]; [by destruct v'|done|].
    destruct w as [wm wl wt wo]. cbn in *. subst wl wo. apply good_held_inv in G as (_ & _ & _ & c' & p & _ & Hp & Hwp & _).
    rewrite Hj in Hp. injection Hp as Hp. unfold call_prog in Hp. destruct p; try discriminate. by cbn in Hwp. }
  destruct (order_grows _ _ R') as [more E]. rewrite E in *. apply in_app_iff in Hin as [Hin|Hin]; [done|].
  apply in_split in Hio as (a & b & ->). apply in_split in Hin as (x & y & ->).
  exists a, (b ++ x), y. by rewrite <- !app_assoc.
Qed.

(** ** Concurrent calls form a history *)

#[local] Transparent perform.
Lemma perform_op s c o : op_of c = Some o ->
  fst (perform s c) = fst (do_op s o) /\ snd (perform s c) = written c (snd (do_op s o)).
Proof.
  destruct c as [ev r w|now r required w|id [e|]|name [e|]|t k x|cfg]; try discriminate; intros [= <-]; try done.
  - cbn. unfold serve_http. destruct (handle ev s r) as [s' o|s']; done.
  - cbn [perform do_op fst snd]. unfold authorize. destruct (authorize_decision now s r required) as [|e|]; try done.
    cbn [written]. by destruct (write_bearer_error w (GErr e)) as [[w' b]|].
Qed.
Lemma perform_event s c : exists e, is_event c e /\ snd (perform s c) = replied c e /\
  forall l, owned l s -> owned (e :: l) (fst (perform s c)).
Proof.
  destruct (op_of c) as [o|] eqn:Eo.
  - destruct (perform_op s c o Eo) as [E1 E2]. exists (Called (step_of s o)). split; [|split; [done|]].
    + destruct c as [ev r w|now r required w|id [e|]|name [e|]|t k x|cfg]; try discriminate Eo; exact Eo.
    + intros l Hl. rewrite E1. by constructor.
  - destruct c as [ev r w|now r required w|id [e|]|name [e|]|t k x|cfg]; try discriminate Eo.
    + exists (Stored t k x). split; [done|]. split; [done|]. intros l Hl. by constructor.
    + exists (Configured cfg). split; [done|]. split; [done|]. intros l Hl. by constructor.
Qed.

#[local] Opaque perform.
Lemma run_app s l1 s1 l2 s2 : run s l1 s1 -> run s1 l2 s2 -> run s (l2 ++ l1) s2.
Proof. intros H1 H2. induction H2; [done|]. cbn. by constructor. Qed.

Lemma one_by_one_run s cs : (forall c, In c cs -> op_of c <> None) -> exists l, run s l (fst (one_by_one s cs)) /\
  map (fun x => Some (st_op x)) (rev l) = map op_of cs /\
  snd (one_by_one s cs) = zip_with written cs (map st_answer (rev l)).
Proof.
  revert s. induction cs as [|c cs IH]; intros s Hcs; cbn.
  { exists []. split; [constructor|done]. }
  destruct (op_of c) as [o|] eqn:Eo; [|by destruct (Hcs c (or_introl eq_refl))].
  destruct (perform_op s c o Eo) as [E1 E2]. destruct (perform s c) as [s1 x]. cbn in E1, E2.
  destruct (IH s1) as (l & Hr & Ho & Ha); [intros d Hd; apply Hcs; by right|]. exists (l ++ [step_of s o]).
  destruct (one_by_one s1 cs) as [s2 xs]. cbn [fst snd] in *.
  rewrite rev_app_distr. cbn. split; [|split].
  - eapply run_app; [|exact Hr]. rewrite E1. apply (run_step s [] s). constructor.
  - by rewrite Ho.
  - by rewrite Ha, E2.
Qed.

Lemma one_by_one_owned s cs : exists l, (forall l0, owned l0 s -> owned (l ++ l0) (fst (one_by_one s cs))) /\
  Forall2 is_event cs (rev l) /\ snd (one_by_one s cs) = zip_with replied cs (rev l).
Proof.
  revert s. induction cs as [|c cs IH]; intros s; cbn [one_by_one].
  { exists []. split; [done|]. split; [constructor|done]. }
  destruct (perform_event s c) as (e & He & Hx & Ho). destruct (perform s c) as [s1 x]. cbn [fst snd] in Hx, Ho.
  destruct (IH s1) as (l & Hr & Hf & Ha). exists (l ++ [e]).
  destruct (one_by_one s1 cs) as [s2 xs]. cbn [fst snd] in *.
  rewrite rev_app_distr. cbn. split; [|split].
  - intros l0 Hl0. rewrite <- app_assoc. cbn. by apply Hr, Ho.
  - by constructor.
  - by rewrite Ha, Hx.
Qed.

Lemma pick_lookup calls order k : (forall j, In j order -> is_Some (calls !! j)) ->
  pick calls order !! k = match order !! k with Some j => calls !! j | None => None end.
Proof.
  revert k. induction order as [|j order IHo]; intros k Hk; [done|]. cbn. destruct (Hk j) as [d Hd]; [by left|]. rewrite Hd.
  destruct k as [|k]; cbn; [done|]. apply IHo. intros j' Hj'. apply Hk. by right.
Qed.
Lemma pick_in calls order c : In c (pick calls order) -> In c calls.
Proof.
  induction order as [|j order IH]; cbn; [done|]. destruct (calls !! j) as [d|] eqn:E; [|done].
  intros [->|H]; [|by apply IH]. apply elem_of_list_In. by eapply elem_of_list_lookup_2.
Qed.
Lemma perm_known (calls : list call) (order : list nat) : Permutation order (seq 0 (length calls)) ->
  forall j, In j order -> is_Some (calls !! j).
Proof.
  intros Hp j Hj. apply lookup_lt_is_Some. assert (In j (seq 0 (length calls))) as Hs by by eapply Permutation_in.
  apply in_seq in Hs. lia.
Qed.

Lemma c53_history : forall cfg m s0 l0 calls w,
  (forall c, In c calls -> op_of c <> None) ->
  history cfg l0 s0 -> holds m s0 -> reaches (start m calls) w -> all_ended w ->
  exists s l, history cfg (l ++ l0) s /\ holds (wo_mem w) s /\
    map (fun x => Some (st_op x)) (rev l) = map op_of (pick calls (wo_order w)) /\
    (forall n i c, wo_order w !! n = Some i -> calls !! i = Some c ->
       exists x, rev l !! n = Some x /\ ended w i (written c (st_answer x))).
Proof.
  intros cfg m s0 l0 calls w Hop Hh H R Ha. destruct (c53_linearizable _ _ _ _ H R Ha) as (Hp & Hm & Hr).
  destruct (one_by_one_run s0 (pick calls (wo_order w))) as (l & Hl & Ho & Hx).
  { intros c Hc. apply Hop. by eapply pick_in. }
  exists (fst (one_by_one s0 (pick calls (wo_order w)))), l. split; [by eapply run_app|]. split; [done|]. split; [done|].
  intros n i c Hn Hc. destruct (Hr n i Hn) as (v & Hv & He). rewrite Hx in Hv.
  apply lookup_zip_with_Some in Hv as (c' & a & -> & Hc' & Ha').
  rewrite pick_lookup, Hn, Hc in Hc' by by apply perm_known. injection Hc' as <-.
  rewrite list_lookup_fmap in Ha'. destruct (rev l !! n) as [x|]; [|done]. exists x. split; [done|].
  cbn in Ha'. injection Ha' as <-. exact He.
Qed.

(** With all assignments of the owner, Owner.v. *)
Lemma c53_owned : forall m s0 l0 calls w,
  owned l0 s0 -> holds m s0 -> reaches (start m calls) w -> all_ended w ->
  exists s l, owned (l ++ l0) s /\ holds (wo_mem w) s /\ length l = length calls /\
    (forall n i c, wo_order w !! n = Some i -> calls !! i = Some c ->
       exists e, rev l !! n = Some e /\ is_event c e /\ ended w i (replied c e)).
Proof.
  intros m s0 l0 calls w Hh H R Ha. destruct (c53_linearizable _ _ _ _ H R Ha) as (Hp & Hm & Hr).
  destruct (one_by_one_owned s0 (pick calls (wo_order w))) as (l & Hl & Hf & Hx).
  exists (fst (one_by_one s0 (pick calls (wo_order w)))), l. split; [by apply Hl|]. split; [done|]. split.
  { apply Forall2_length in Hf. rewrite rev_length, pick_length in Hf by by apply perm_known.
    rewrite <- Hf, (Permutation_length Hp). apply seq_length. }
  intros n i c Hn Hc. destruct (Hr n i Hn) as (v & Hv & He). rewrite Hx in Hv.
  apply lookup_zip_with_Some in Hv as (c' & e & -> & Hc' & He').
  rewrite pick_lookup, Hn, Hc in Hc' by by apply perm_known. injection Hc' as <-.
  exists e. split; [done|]. split; [|done].
  eapply Forall2_lookup_lr; [exact Hf| |exact He']. rewrite pick_lookup, Hn by by apply perm_known. exact Hc.
Qed.

(** ** Every server can be held *)

Lemma holds_unique : forall m s s', holds m s -> holds m s' -> s = s'.
Proof.
  intros m s s' H H'. assert (Ht : forall t, sv_table s t = sv_table s' t).
  { intros t. apply map_eq. intros k. destruct (me_table m t !! k) as [l|] eqn:E.
    - destruct (holds_some _ _ _ _ _ H E) as (c & Hc & ->). destruct (holds_some _ _ _ _ _ H' E) as (c' & Hc' & ->). congruence.
    - by rewrite (holds_none _ _ _ _ H E), (holds_none _ _ _ _ H' E). }
  pose proof (Ht TAccess) as H1. pose proof (Ht TRefresh) as H2. pose proof (Ht TCodes) as H3.
  destruct H as (E1 & E2 & E3 & _), H' as (E1' & E2' & E3' & _). destruct s, s'. cbn in *. congruence.
Qed.

Lemma holds_add m s t k c : holds m s -> exists m', holds m' (sv_set_table s t (<[k := c]> (sv_table s t))).
Proof.
  intros H. set (l := fresh (dom (me_heap m))). assert (Hl : me_heap m !! l = None) by (apply not_elem_of_dom, is_fresh).
  destruct (holds_new _ _ l c H Hl) as [H1 L1]. eexists. apply (holds_insert _ _ t k l c H1 L1). cbn. by rewrite lookup_insert.
Qed.
Lemma holds_fill s t x : (exists m, holds m (sv_set_table s t ∅)) -> exists m, holds m (sv_set_table s t x).
Proof.
  intros H0. induction x as [|k c x Hk IH] using map_ind; [done|]. destruct IH as [m IH].
  destruct (holds_add _ _ t k c IH) as [m' H']. exists m'. by rewrite sv_table_same, sv_set_set in H'.
Qed.
Lemma holds_exists : forall s, exists m, holds m s.
Proof.
  intros s. set (s0 := sv_set_table (sv_set_table (sv_set_table s TAccess ∅) TRefresh ∅) TCodes ∅).
  assert (H0 : exists m, holds m s0).
  { exists {| me_config := sv_config s; me_clients := sv_clients s; me_users := sv_users s; me_access := ∅; me_refresh := ∅; me_codes := ∅; me_heap := ∅ |}.
    unfold holds. cbn. split; [done|]. split; [done|]. split; [done|]. split.
    - intros [] k; cbn; rewrite lookup_empty; cbn; by rewrite ?lookup_empty.
    - intros t k t' k' l. destruct t; cbn; by rewrite lookup_empty. }
  apply (holds_fill _ TCodes (sv_codes s)) in H0.
  assert (H1 : exists m, holds m (sv_set_table (sv_set_table (sv_set_table s TAccess ∅) TCodes (sv_codes s)) TRefresh ∅)) by exact H0.
  apply (holds_fill _ TRefresh (sv_refresh s)) in H1.
  assert (H2 : exists m, holds m (sv_set_table (sv_set_table (sv_set_table s TCodes (sv_codes s)) TRefresh (sv_refresh s)) TAccess ∅)) by exact H1.
  apply (holds_fill _ TAccess (sv_access s)) in H2. destruct H2 as [m Hm]. exists m. by destruct s.
Qed.
