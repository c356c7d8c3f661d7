(** C72: waiting for a client while holding the mutex. *)
From Verif.Model Require Import Server History Concurrent.
From Verif.Spec Require Import RequestSpec ServerSpec Cases ConcurrentSpec ConcurrentCases.
From Verif.Proof Require Import StrFacts ServerFacts ServerProofs GrantProofs EffectProofs ConcurrentWp ConcurrentHandlers ConcurrentProofs ConcurrentMore.
#[local] Opaque parse_token perform.

Lemma access_wait {A} m x (p : prog A) m' p' : access m (PWait x p) m' p' -> p' = p.
Proof. intros H. by inversion H. Qed.

(** ** Who can wait *)

Lemma awaits_step w i x : awaits w i x -> exists w', wstep i w w'.
Proof. intros [p Hp]. destruct w as [m b ts order]. cbn in Hp. eexists. eapply ws_access; [exact Hp|]. constructor. Qed.
Lemma awaits_access w i x : awaits w i x -> about_to_access w i.
Proof. intros [p Hp]. exists (PWait x p), (wo_mem w), p. split; [done|]. constructor. Qed.

Lemma c72_holder : forall m s calls w i x,
  holds m s -> reaches (start m calls) w -> awaits w i x ->
  wo_locked w = true /\ last (wo_order w) = Some i.
Proof. intros m s calls w i x H R Ha. exact (c53_exclusive m s calls w i H R (awaits_access _ _ _ Ha)). Qed.

Lemma c72_standstill : forall m s calls w i x j w',
  holds m s -> reaches (start m calls) w -> awaits w i x -> wstep j w w' -> j = i.
Proof.
  intros m s calls w i x j w' H R Ha St. destruct (c72_holder _ _ _ _ _ _ H R Ha) as [Hl Hi].
  assert (G : good s calls w) by (eapply good_reaches; [|exact R]; by apply start_good).
  destruct St as [m1 b ts order p m' p' Hp Hac|m1 ts order p Hp|m1 ts order p Hp]; cbn in Hl, Hi.
  - assert (Hx : about_to_access {| wo_mem := m1; wo_locked := b; wo_threads := ts; wo_order := order |} j) by (exists p, m', p'; done).
    destruct (c53_exclusive _ _ _ _ _ H R Hx) as [_ Hj]. cbn in Hj. congruence.
  - discriminate.
  - destruct (thread_cases _ _ _ _ _ G Hp) as [[v Hv]|[(c & _ & Hv & _)|[_ (order' & Ho)]]]; cbn in *.
    + by destruct v.
    + discriminate Hv.
    + rewrite Ho, last_snoc in Hi. by injection Hi.
Qed.

Lemma c72_one_waits : forall m s calls w i x j y,
  holds m s -> reaches (start m calls) w -> awaits w i x -> awaits w j y -> i = j /\ x = y.
Proof.
  intros m s calls w i x j y H R Hi Hj. destruct (awaits_step _ _ _ Hj) as [w' St].
  pose proof (c72_standstill _ _ _ _ _ _ _ _ H R Hi St) as ->. split; [done|].
  destruct Hi as [p Hp], Hj as [q Hq]. congruence.
Qed.

(** ** What the server does on its own *)

Lemma own_step_trans w1 w2 w3 : own_step w1 w2 -> own_steps w2 w3 -> own_steps w1 w3.
Proof.
  intros H1 H2. induction H2 as [w|a b c R IH St].
  - econstructor; [constructor|done].
  - econstructor; [by apply IH|done].
Qed.

Lemma awaits_dec w i : (exists x, awaits w i x) \/ forall x, ~ awaits w i x.
Proof.
  unfold awaits. destruct (wo_threads w !! i) as [p|]; [|right; by intros x [q Hq]].
  destruct p; try (right; by intros ? [? ?]). left. eauto.
Qed.

Lemma c72_alone : forall m s calls w,
  holds m s -> reaches (start m calls) w ->
  exists w', own_steps w w' /\ (all_ended w' \/ exists i x, awaits w' i x).
Proof.
  intros m s calls w H. induction (c53_terminates w) as [w _ IH]. intros R.
  destruct (c53_no_deadlock _ _ _ _ H R) as [[Ha _]|(i & w' & St)].
  { exists w. split; [constructor|]. by left. }
  destruct (awaits_dec w i) as [[x Hx]|Hn].
  { exists w. split; [constructor|]. right. by exists i, x. }
  destruct (IH w') as (w2 & R2 & Hw2); [by exists i|exact (reaches_step _ _ _ i R St)|].
  exists w2. split; [|done]. eapply own_step_trans; [|exact R2]. by exists i.
Qed.

(** ** Which calls wait for what *)

Fixpoint never {A} (x : wait) (p : prog A) : Prop :=
  match p with
  | PRet _ | PPanic => True
  | PLookup _ _ f => forall y, never x (f y)
  | PInsert _ _ _ q | PDelete _ _ q | PUse _ q | PSetClient _ _ q | PSetUser _ _ q | PSetConfig _ q | PLock q | PUnlock q => never x q
  | PKeys _ f => forall y, never x (f y)
  | PNew _ f => forall y, never x (f y)
  | PLoad _ f => forall y, never x (f y)
  | PClient _ f => forall y, never x (f y)
  | PUser _ f => forall y, never x (f y)
  | PConfig f => forall y, never x (f y)
  | PWait y q => y <> x /\ never x q
  end.
Lemma never_bind {A B} x (p : prog A) (g : A -> prog B) : never x p -> (forall a, never x (g a)) -> never x (pbind p g).
Proof. intros Hp Hg. induction p; cbn in *; auto. destruct Hp. auto. Qed.
Lemma never_defer {A} x (p : prog A) : never x p -> never x (defer_unlock p).
Proof. induction p; cbn in *; auto. intros [? ?]. auto. Qed.
Lemma never_access {A} x m (p : prog A) m' p' : never x p -> access m p m' p' -> never x p'.
Proof. intros Hr Ha. destruct Ha; cbn in Hr; auto. by destruct Hr. Qed.
Lemma never_thread w w' i x p : wo_threads w !! i = Some p -> never x p -> reaches w w' ->
  exists p', wo_threads w' !! i = Some p' /\ never x p'.
Proof.
  intros Hp Hr R. induction R as [w|w1 w2 w3 j R IH St]; [eauto|]. destruct (IH Hp) as (p1 & Hp1 & Hr1). clear IH Hp Hr p.
  destruct St as [m b ts order p m' p' Hp Ha|m ts order p Hp|m ts order p Hp]; cbn in *;
    (destruct (decide (i = j)) as [->|Hij]; [|rewrite list_lookup_insert_ne by done; eauto]);
    rewrite Hp in Hp1; injection Hp1 as <-; rewrite list_lookup_insert by (apply lookup_lt_is_Some; eauto);
    eexists; (split; [done|]).
  - by eapply never_access.
  - done.
  - done.
Qed.

(** The handlers themselves do not wait. *)
Fixpoint still {A} (p : prog A) : Prop :=
  match p with
  | PRet _ | PPanic => True
  | PLookup _ _ f => forall y, still (f y)
  | PInsert _ _ _ q | PDelete _ _ q | PUse _ q | PSetClient _ _ q | PSetUser _ _ q | PSetConfig _ q | PLock q | PUnlock q => still q
  | PKeys _ f => forall y, still (f y)
  | PNew _ f => forall y, still (f y)
  | PLoad _ f => forall y, still (f y)
  | PClient _ f => forall y, still (f y)
  | PUser _ f => forall y, still (f y)
  | PConfig f => forall y, still (f y)
  | PWait y q => False
  end.
Lemma still_never {A} x (p : prog A) : still p -> never x p.
Proof. induction p; cbn; auto. done. Qed.

Ltac nv := repeat match goal with
  | |- True => exact I
  | |- forall _, _ => intros ?
  | H : _ |- still _ => apply H
  | |- still (match ?e with _ => _ end) => destruct e
  | |- still _ => progress cbn [still]
  end.

Lemma issue_still ev b sc cid ow code k : (forall r, still (k r)) -> still (issue_prog ev b sc cid ow code k).
Proof. intros H. unfold issue_prog. cbv zeta. nv. Qed.
Lemma loop_still t code keys next : still next -> still (revoke_loop t code keys next).
Proof. intros H. induction keys as [|k keys IH]; cbn [revoke_loop]; nv. Qed.
Lemma lookup_still r k : (forall a b, still (k a b)) -> still (lookup_prog r k).
Proof. intros H. unfold lookup_prog. cbv zeta. nv. Qed.
Lemma authorization_still ev r : still (authorization_prog ev r).
Proof.
  unfold authorization_prog, implicit_prog, code_authorization_prog. cbv zeta. nv. apply issue_still. nv.
Qed.
Lemma code_still ev rq : still (code_prog ev rq).
Proof.
  unfold code_prog. cbv zeta. nv; [apply loop_still; nv; apply loop_still; nv|apply issue_still; nv].
Qed.
Lemma token_still ev r : still (token_prog ev r).
Proof.
  unfold token_prog. pose proof code_still as Hc.
  unfold password_prog, client_credentials_prog, refresh_prog. cbv zeta. nv; apply issue_still; nv.
Qed.
Lemma handle_still ev r : still (handle_prog ev r).
Proof.
  unfold handle_prog. cbv zeta. pose proof authorization_still. pose proof token_still.
  assert (still (introspection_prog r)). { apply lookup_still. unfold describe_prog. cbv zeta. nv. }
  assert (still (revocation_prog r)). { apply lookup_still. unfold revoke_prog. cbv zeta. nv. }
  nv.
Qed.
Lemma decision_still now r required : still (decision_prog now r required).
Proof. unfold decision_prog. nv. Qed.

Definition work_prog (ev : env) (r : request) (w : rw) : prog reply :=
  pbind (handle_prog ev r) (fun o =>
    match write_outcome w o with Some w' => PWait ForAnswer (PRet (Served w')) | None => PPanic end).
Lemma work_never ev r w : never ForBody (work_prog ev r w).
Proof. apply never_bind; [apply still_never, handle_still|]. intros o. by destruct (write_outcome w o). Qed.
Lemma body_never c :
  never ForBody (body_prog c) \/
  exists ev r w, c = CServe ev r w /\ reads_body r = true /\ body_prog c = PWait ForBody (work_prog ev r w).
Proof.
  destruct c as [ev r w|now r required w|id e|name e|t k [c|]|cfg]; cbn [body_prog].
  - cbv zeta. fold (work_prog ev r w). destruct (reads_body r) eqn:E; [right; exists ev, r, w; split; [done|]; split; [done|reflexivity]|left; apply work_never].
  - left. apply never_bind; [apply still_never, decision_still|]. intros [|e|]; try done.
    by destruct (write_bearer_error w (GErr e)) as [[? ?]|].
  - by left.
  - by left.
  - by left.
  - by left.
  - by left.
Qed.

Lemma reads_body_spec r : reads_body r = true -> carries_form r.
Proof.
  unfold reads_body, carries_form. cbv zeta. intros H. apply andb_true_iff in H as [H Hb]. apply andb_true_iff in H as [H Hm].
  split; [|split].
  - rewrite endpoint_authorize, endpoint_token, endpoint_introspect, endpoint_revoke.
    rewrite !orb_true_iff, !seqb_true in H. tauto.
  - by apply seqb_true.
  - destruct (rq_preset r); [done|]. by destruct (rq_body r).
Qed.

#[local] Opaque body_prog.
(** Where a goroutine is. *)
Lemma body_place m calls w i c : reaches (start m calls) w -> calls !! i = Some c ->
  exists p, wo_threads w !! i = Some p /\
    (p = call_prog c \/ p = defer_unlock (body_prog c) \/ never ForBody p).
Proof.
  intros R Hc. remember (start m calls) as w0 eqn:E0. induction R as [w|w1 w2 w3 j R IH St]; subst.
  { exists (call_prog c). cbn. rewrite list_lookup_fmap, Hc. by split; [|left]. }
  destruct (IH eq_refl) as (p0 & Hp0 & Hcase). clear IH.
  destruct St as [m1 b ts order p m' p' Hp Ha|m1 ts order p Hp|m1 ts order p Hp]; cbn in *;
    (destruct (decide (i = j)) as [->|Hij]; [|rewrite list_lookup_insert_ne by done; eauto]);
    rewrite Hp in Hp0; injection Hp0 as <-; rewrite list_lookup_insert by (apply lookup_lt_is_Some; eauto);
    eexists; (split; [done|]).
  - destruct Hcase as [->|[->|Hn]].
    + inversion Ha.
    + right. right. destruct (body_never c) as [Hn|(ev & r & x & -> & _ & E)].
      * eapply never_access; [|exact Ha]. by apply never_defer.
      * rewrite E in Ha. cbn in Ha. inversion Ha; subst. apply never_defer, work_never.
    + right. right. by eapply never_access.
  - destruct Hcase as [E|[E|Hn]].
    + unfold call_prog in E. injection E as ->. right. by left.
    + right. right. destruct (body_never c) as [Hn|(ev & r & x & -> & _ & E')].
      * apply (never_defer ForBody) in Hn. by rewrite <- E in Hn.
      * by rewrite E' in E.
    + by right; right.
  - destruct Hcase as [E|[E|Hn]].
    + discriminate E.
    + right. right. destruct (body_never c) as [Hn|(ev & r & x & -> & _ & E')].
      * apply (never_defer ForBody) in Hn. by rewrite <- E in Hn.
      * by rewrite E' in E.
    + by right; right.
Qed.

Lemma awaits_body m s calls w i : holds m s -> reaches (start m calls) w -> awaits w i ForBody ->
  exists ev r x, calls !! i = Some (CServe ev r x) /\ reads_body r = true /\
    wo_threads w !! i = Some (defer_unlock (body_prog (CServe ev r x))).
Proof.
  intros H R [q Hq]. assert (G : good s calls w) by (eapply good_reaches; [|exact R]; by apply start_good).
  assert (Hl : length (wo_threads w) = length calls) by by destruct G.
  assert (is_Some (calls !! i)) as [c Hc].
  { apply lookup_lt_is_Some. rewrite <- Hl. apply lookup_lt_is_Some. eauto. }
  destruct (body_place m calls w i c R Hc) as (p & Hp & Hcase). rewrite Hq in Hp. injection Hp as <-.
  destruct Hcase as [E|[E|Hn]]; [discriminate E| |by destruct Hn].
  destruct (body_never c) as [Hn|(ev & r & x & -> & Hr & E')].
  - apply (never_defer ForBody) in Hn. rewrite <- E in Hn. by destruct Hn.
  - exists ev, r, x. rewrite Hq. by rewrite <- E.
Qed.

Lemma c72_form : forall m s calls w i,
  holds m s -> reaches (start m calls) w -> awaits w i ForBody ->
  exists ev r x, calls !! i = Some (CServe ev r x) /\ carries_form r.
Proof.
  intros m s calls w i H R Ha. destruct (awaits_body _ _ _ _ _ H R Ha) as (ev & r & x & Hc & Hr & _).
  exists ev, r, x. split; [done|]. by apply reads_body_spec.
Qed.

(** ** Nothing is half done while a call waits *)

Lemma c72_before : forall m s calls w i,
  holds m s -> reaches (start m calls) w -> awaits w i ForBody ->
  exists earlier, wo_order w = earlier ++ [i] /\
    holds (wo_mem w) (fst (one_by_one s (pick calls earlier))).
Proof.
  intros m s calls w i H R. remember (start m calls) as w0 eqn:E0.
  induction R as [w|w1 w2 w3 j R IH St]; subst; intros Ha.
  { destruct Ha as [q Hq]. cbn in Hq. rewrite list_lookup_fmap in Hq. by destruct (calls !! i). }
  pose proof (reaches_step _ _ _ _ R St) as R3.
  destruct (awaits_body _ _ _ _ _ H R3 Ha) as (ev & r & x & Hc & Hr & Hp).
  assert (G : good s calls w2) by (eapply good_reaches; [|exact R]; by apply start_good).
  assert (Hnd : NoDup (wo_order w3)).
  { assert (G3 : good s calls w3) by (eapply good_reaches; [|exact R3]; by apply start_good). by destruct G3. }
  destruct (c72_holder _ _ _ _ _ _ H R3 Ha) as [Hl3 Hi3].
  destruct St as [m1 b ts order p m' p' Hp' Hac|m1 ts order p Hp'|m1 ts order p Hp']; cbn in Hl3, Hi3, Hp, Hnd |- *.
  - destruct (decide (i = j)) as [->|Hij].
    + rewrite list_lookup_insert in Hp by (apply lookup_lt_is_Some; eauto). injection Hp as ->.
      destruct (body_place m calls _ j _ R Hc) as (p0 & Hp0 & Hcase). cbn in Hp0. rewrite Hp' in Hp0. injection Hp0 as <-.
      destruct (body_never (CServe ev r x)) as [Hn|(ev' & r' & x' & E1 & _ & E')].
      { destruct Ha as [q Hq]. cbn in Hq. rewrite list_lookup_insert in Hq by (apply lookup_lt_is_Some; eauto). injection Hq as Hq.
        apply (never_defer ForBody) in Hn. rewrite Hq in Hn. by destruct Hn. }
      injection E1 as <- <- <-.
      destruct Hcase as [->|[->|Hn]].
      * inversion Hac.
      * pose proof (work_never ev r x) as Hn.
        apply (never_defer ForBody) in Hn. rewrite E' in Hac. cbn [defer_unlock] in Hac.
        assert (Hn' : never ForBody (PWait ForBody (defer_unlock (work_prog ev r x)))).
        { by rewrite (access_wait _ _ _ _ _ Hac). }
        by destruct Hn'.
      * apply (never_access _ _ _ _ _ Hn) in Hac. rewrite E' in Hac. by destruct Hac.
    + exfalso. rewrite list_lookup_insert_ne in Hp by done. apply Hij.
      assert (Ha2 : awaits {| wo_mem := m1; wo_locked := b; wo_threads := ts; wo_order := order |} i ForBody).
      { destruct Ha as [q Hq]. cbn in Hq. rewrite list_lookup_insert_ne in Hq by done. by exists q. }
      symmetry. eapply (c72_standstill m s calls _ i ForBody j _ H R Ha2). by eapply ws_access.
  - rewrite last_snoc in Hi3. injection Hi3 as ->. exists order. split; [done|].
    by apply good_free_inv in G as (_ & _ & _ & Hh & _).
  - discriminate Hl3.
Qed.

#[local] Transparent body_prog.
(** A call that waits for its answer to be taken has only that left to do. *)
Fixpoint answer_last {A} (p : prog A) : Prop :=
  match p with
  | PRet _ | PPanic => True
  | PLookup _ _ f => forall y, answer_last (f y)
  | PInsert _ _ _ q | PDelete _ _ q | PUse _ q | PSetClient _ _ q | PSetUser _ _ q | PSetConfig _ q | PLock q | PUnlock q => answer_last q
  | PKeys _ f => forall y, answer_last (f y)
  | PNew _ f => forall y, answer_last (f y)
  | PLoad _ f => forall y, answer_last (f y)
  | PClient _ f => forall y, answer_last (f y)
  | PUser _ f => forall y, answer_last (f y)
  | PConfig f => forall y, answer_last (f y)
  | PWait ForBody q => answer_last q
  | PWait ForAnswer q => exists a, q = PUnlock (PRet a)
  end.
Fixpoint answer_end {A} (p : prog A) : Prop :=
  match p with
  | PRet _ | PPanic => True
  | PLookup _ _ f => forall y, answer_end (f y)
  | PInsert _ _ _ q | PDelete _ _ q | PUse _ q | PSetClient _ _ q | PSetUser _ _ q | PSetConfig _ q | PLock q | PUnlock q => answer_end q
  | PKeys _ f => forall y, answer_end (f y)
  | PNew _ f => forall y, answer_end (f y)
  | PLoad _ f => forall y, answer_end (f y)
  | PClient _ f => forall y, answer_end (f y)
  | PUser _ f => forall y, answer_end (f y)
  | PConfig f => forall y, answer_end (f y)
  | PWait ForBody q => answer_end q
  | PWait ForAnswer q => exists a, q = PRet a
  end.
Lemma answer_defer {A} (p : prog A) : answer_end p -> answer_last (defer_unlock p).
Proof.
  induction p as [| | | | | | | | | | | | | | |x p IH| |]; cbn; auto. destruct x; [auto|]. intros [a ->]. by exists a.
Qed.
Lemma answer_access {A} m (p : prog A) m' p' : answer_last p -> access m p m' p' -> answer_last p'.
Proof. intros Hr Ha. destruct Ha as [| | | | | | | | | | | | |m x p]; cbn in Hr; auto. destruct x; [done|]. by destruct Hr as [a ->]. Qed.
Lemma answer_bind {A B} (p : prog A) (g : A -> prog B) : still p -> (forall a, answer_end (g a)) -> answer_end (pbind p g).
Proof. intros Hp Hg. induction p; cbn in *; auto. done. Qed.
Lemma body_answer c : answer_end (body_prog c).
Proof.
  destruct c as [ev r w|now r required w|id e|name e|t k [c|]|cfg]; cbn [body_prog]; [| |done|done|done|done|done].
  - cbv zeta. fold (work_prog ev r w). enough (H : answer_end (work_prog ev r w)) by (by destruct (reads_body r)).
    apply answer_bind; [apply handle_still|]. intros o. destruct (write_outcome w o) as [w'|]; [|done]. by eexists.
  - apply answer_bind; [apply decision_still|]. intros [|e|]; try done.
    destruct (write_bearer_error w (GErr e)) as [[w' ?]|]; [|done]. by eexists.
Qed.
Lemma answer_thread w w' i p : wo_threads w !! i = Some p -> answer_last p -> reaches w w' ->
  exists p', wo_threads w' !! i = Some p' /\ answer_last p'.
Proof.
  intros Hp Hr R. induction R as [w|w1 w2 w3 j R IH St]; [eauto|]. destruct (IH Hp) as (p1 & Hp1 & Hr1). clear IH Hp Hr p.
  destruct St as [m b ts order p m' p' Hp Ha|m ts order p Hp|m ts order p Hp]; cbn in *;
    (destruct (decide (i = j)) as [->|Hij]; [|rewrite list_lookup_insert_ne by done; eauto]);
    rewrite Hp in Hp1; injection Hp1 as <-; rewrite list_lookup_insert by (apply lookup_lt_is_Some; eauto);
    eexists; (split; [done|]).
  - by eapply answer_access.
  - done.
  - done.
Qed.

Lemma c72_after : forall m s calls w i,
  holds m s -> reaches (start m calls) w -> awaits w i ForAnswer ->
  holds (wo_mem w) (fst (one_by_one s (pick calls (wo_order w)))).
Proof.
  intros m s calls w i H R Ha. destruct (c72_holder _ _ _ _ _ _ H R Ha) as [Hl Hi].
  assert (G : good s calls w) by (eapply good_reaches; [|exact R]; by apply start_good).
  destruct G as [m' ts order Hlen Hnd Hin Hh Ho Hw|m' ts order j c p Hlen Hnd Hin Hc Hq Hwp Ho Hw]; [done|].
  cbn in Hi |- *. rewrite last_snoc in Hi. injection Hi as ->.
  assert (Hs : wo_threads (start m calls) !! i = Some (call_prog c)) by (cbn; by rewrite list_lookup_fmap, Hc).
  destruct (answer_thread _ _ _ _ Hs (answer_defer _ (body_answer c)) R) as (p' & Hp' & Hl').
  destruct Ha as [q Hx]. cbn in Hp', Hx. rewrite Hx in Hp'. injection Hp' as <-. rewrite Hx in Hq. injection Hq as Hq.
  destruct Hl' as [a Ea]. destruct p as [a'| | | | | | | | | | | | | | |x p| |]; cbn in Hq; try discriminate Hq.
  injection Hq as <- ->. destruct p as [a'| | | | | | | | | | | | | | |x p| |]; try discriminate Ea; [|by cbn in Hwp].
  cbn [wp] in Hwp. destruct Hwp as [Hwp _]. rewrite (pick_snoc _ _ _ _ Hc), one_by_one_snoc. exact Hwp.
Qed.

(** ** The case of ConcurrentCases.v *)
Lemma stalled_reads : reads_body (password_request case_auth "read") = true.
Proof. vm_compute. reflexivity. Qed.

Lemma lock_awaits m ev r x rest : reads_body r = true ->
  exists w, reaches (start m (CServe ev r x :: rest)) w /\ awaits w 0 ForBody /\
    forall n c, rest !! n = Some c -> waiting (CServe ev r x :: rest) w (S n).
Proof.
  intros Hr. eexists. split; [|split].
  - eapply reaches_step; [constructor|]. apply (ws_lock 0). reflexivity.
  - unfold awaits. eexists. cbn [wo_threads list_insert insert lookup list_lookup map]. cbn [body_prog]. cbv zeta. rewrite Hr. reflexivity.
  - intros n c Hc. exists c. split; [exact Hc|]. cbn [wo_threads list_insert insert lookup list_lookup map]. 
    change (map (call_prog) rest !! n = Some (call_prog c)). by rewrite list_lookup_fmap, Hc.
Qed.

Lemma c72_case : exists m w, holds m case_server /\ reaches (start m stalled) w /\
  awaits w 0 ForBody /\ waiting stalled w 1 /\ forall j w', wstep j w w' -> j = 0.
Proof.
  destruct (holds_exists case_server) as [m Hm].
  destruct (lock_awaits m (case_env 1001 rand2) _ new_rw [CAuthorize 1001 (bearer_request "x") None new_rw] stalled_reads) as (w & R & Ha & Hw).
  exists m, w. split; [exact Hm|]. split; [exact R|]. split; [exact Ha|]. split; [exact (Hw 0 _ eq_refl)|].
  intros j w' St. exact (c72_standstill _ _ _ _ _ _ _ _ Hm R Ha St).
Qed.
Lemma c72_refuted : exists m s calls w i x j,
  holds m s /\ reaches (start m calls) w /\ awaits w i x /\ waiting calls w j /\
  forall k w', wstep k w w' -> k = i.
Proof.
  destruct c72_case as (m & w & H). exists m, case_server, stalled, w, 0, ForBody, 1. exact H.
Qed.
