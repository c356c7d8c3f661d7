(** More about concurrent calls: every order is possible; some calls only read. *)
From Verif.Model Require Import Server History Concurrent.
From Verif.Spec Require Import ServerSpec ConcurrentSpec.
From Verif.Proof Require Import StrFacts ServerFacts ServerProofs GrantProofs EffectProofs ConcurrentWp ConcurrentHandlers ConcurrentProofs.

(** ** Every order of acquisition is possible *)

Lemma holder_finishes s calls w : good s calls w -> 
  exists w', reaches w w' /\ wo_locked w' = false /\ wo_order w' = wo_order w.
Proof.
  induction (c53_terminates w) as [w _ IH]. intros G. destruct (wo_locked w) eqn:El; [|exists w; split; [constructor|done]].
  assert (Hst : exists i w', wstep i w w' /\ last (wo_order w) = Some i).
  { destruct G as [m' ts order Hl Hnd Hi Hh Ho Hw|m' ts order j c p Hl Hnd Hi Hc Hq Hwp Ho Hw]; [done|]. cbn. exists j.
    rewrite last_snoc. destruct (wp_progress _ _ _ Hwp) as [Ho'|(m2 & p2 & Ha)].
    - destruct p as [a| | | | | | | | | | | | | | | | |]; try discriminate.
      + eexists. split; [apply (ws_unlock j m' ts _ (PRet a)); exact Hq|done].
      + eexists. split; [apply (ws_unlock j m' ts _ PPanic); exact Hq|done].
    - eexists. split; [eapply ws_access; [exact Hq|]; by apply access_defer|done]. }
  destruct Hst as (i & w1 & St & _). destruct (IH w1) as (w' & R' & Hf & Ho); [by exists i|by eapply good_step|].
  exists w'. split; [eapply reaches_trans; [eapply reaches_step; [constructor|exact St]|exact R']|]. split; [done|].
  rewrite Ho. destruct St as [m b ts order p m' p' Hp Ha|m ts order p Hp|m ts order p Hp]; done.
Qed.

Lemma every_prefix m s calls order : holds m s -> NoDup order -> (forall i, In i order -> i < length calls) ->
  exists w, reaches (start m calls) w /\ wo_locked w = false /\ wo_order w = order.
Proof.
  intros H. induction order as [|i order IH] using rev_ind; intros Hn Hi.
  { exists (start m calls). split; [constructor|done]. }
  apply nodup_snoc_inv in Hn as [Hn Hni].
  destruct IH as (w & R & Hf & Ho); [done|intros j Hj; apply Hi, in_app_iff; by left|].
  assert (G : good s calls w) by (eapply good_reaches; [|exact R]; by apply start_good).
  assert (is_Some (calls !! i)) as [c Hc]. { apply lookup_lt_is_Some, Hi, in_app_iff. right. by left. }
  destruct w as [wm wl wt wo]. cbn in Hf, Ho. subst wl wo. pose proof G as G0. apply good_free_inv in G as (Hl & _ & _ & _ & _ & Hw).
  specialize (Hw i c Hc Hni). unfold call_prog in Hw.
  pose proof (ws_lock i wm wt order _ Hw) as St. pose proof (good_step _ _ _ _ _ G0 St) as G1.
  destruct (holder_finishes _ _ _ G1) as (w' & R' & Hf' & Ho'). exists w'. split; [|done].
  eapply reaches_trans; [|exact R']. eapply reaches_step; [exact R|exact St].
Qed.

Lemma c53_every_order : forall m s calls order,
  holds m s -> Permutation order (seq 0 (length calls)) ->
  exists w, reaches (start m calls) w /\ all_ended w /\ wo_order w = order.
Proof.
  intros m s calls order H Hp. destruct (every_prefix m s calls order H) as (w & R & Hf & Ho).
  - rewrite Hp. apply NoDup_seq.
  - intros i Hi. apply (Permutation_in _ Hp), in_seq in Hi. lia.
  - exists w. split; [done|]. split; [|done].
    assert (G : good s calls w) by (eapply good_reaches; [|exact R]; by apply start_good).
    destruct w as [wm wl wt wo]. cbn in Hf, Ho. subst wl wo. apply good_free_inv in G as (Hl & _ & _ & _ & Hout & _).
    intros i Hi. cbn in Hi. assert (Hin : In i order) by (apply (Permutation_in _ (Permutation_sym Hp)), in_seq; lia).
    apply elem_of_list_In, elem_of_list_lookup in Hin as [n Hin]. destruct (Hout n i Hin) as (v & _ & Hv). by exists v.
Qed.

(** ** Calls that only read *)

Fixpoint readonly {A} (p : prog A) : Prop :=
  match p with
  | PRet _ | PPanic => True
  | PLookup _ _ f => forall x, readonly (f x)
  | PKeys _ f => forall x, readonly (f x)
  | PLoad _ f => forall x, readonly (f x)
  | PClient _ f => forall x, readonly (f x)
  | PUser _ f => forall x, readonly (f x)
  | PConfig f => forall x, readonly (f x)
  | PWait _ q | PLock q | PUnlock q => readonly q
  | _ => False
  end.
Lemma readonly_access {A} m (p : prog A) m' p' : readonly p -> access m p m' p' -> m' = m /\ readonly p'.
Proof. intros Hr Ha. destruct Ha; cbn in Hr; done || (split; [done|]; by apply Hr). Qed.
Lemma readonly_bind {A B} (p : prog A) (g : A -> prog B) : readonly p -> (forall a, readonly (g a)) -> readonly (pbind p g).
Proof. intros Hp Hg. induction p; cbn in *; auto. Qed.
Lemma readonly_defer {A} (p : prog A) : readonly p -> readonly (defer_unlock p).
Proof. induction p; cbn in *; auto. Qed.

Lemma readonly_thread w w' i p : wo_threads w !! i = Some p -> readonly p -> reaches w w' ->
  exists p', wo_threads w' !! i = Some p' /\ readonly p'.
Proof.
  intros Hp Hr R. induction R as [w|w1 w2 w3 j R IH St]; [eauto|]. destruct (IH Hp) as (p1 & Hp1 & Hr1). clear IH Hp Hr p.
  destruct St as [m b ts order p m' p' Hp Ha|m ts order p Hp|m ts order p Hp]; cbn in *.
  - destruct (decide (i = j)) as [->|Hij]; [|rewrite list_lookup_insert_ne by done; eauto].
    rewrite Hp in Hp1. injection Hp1 as ->. exists p'. rewrite list_lookup_insert by (apply lookup_lt_is_Some; eauto).
    split; [done|]. by eapply readonly_access.
  - destruct (decide (i = j)) as [->|Hij]; [|rewrite list_lookup_insert_ne by done; eauto].
    rewrite Hp in Hp1. injection Hp1 as <-. exists p. rewrite list_lookup_insert by (apply lookup_lt_is_Some; eauto). done.
  - destruct (decide (i = j)) as [->|Hij]; [|rewrite list_lookup_insert_ne by done; eauto].
    rewrite Hp in Hp1. injection Hp1 as <-. exists p. rewrite list_lookup_insert by (apply lookup_lt_is_Some; eauto). done.
Qed.

Lemma readonly_steps m calls w i w' c : calls !! i = Some c -> readonly (body_prog c) ->
  reaches (start m calls) w -> wstep i w w' -> wo_mem w' = wo_mem w.
Proof.
  intros Hc Hr R St. assert (Hs : wo_threads (start m calls) !! i = Some (call_prog c)).
  { cbn. rewrite list_lookup_fmap. by rewrite Hc. }
  destruct (readonly_thread _ _ _ _ Hs (readonly_defer _ Hr) R) as (p & Hp & Hrp).
  destruct St as [m1 b ts order p1 m' p' Hp1 Ha|m1 ts order p1 Hp1|m1 ts order p1 Hp1]; cbn in *; try done.
  rewrite Hp in Hp1. injection Hp1 as ->. by destruct (readonly_access _ _ _ _ Hrp Ha).
Qed.

Lemma decision_readonly now r required : readonly (decision_prog now r required).
Proof.
  unfold decision_prog. destruct (parse_bearer_token r); try done. cbn [readonly]. intros cfg. destruct (parse_token _ _); [|done].
  cbn [readonly]. intros [l|]; [|done]. cbn [readonly]. intros a. destruct (_ <? _)%Z; [done|]. cbn [readonly]. intros a'.
  by destruct (negb _).
Qed.

Lemma describe_readonly l kind k : (forall r, readonly (k r)) -> readonly (describe_prog l kind k).
Proof. intros H. unfold describe_prog. cbn [readonly]. intros. apply H. Qed.

Lemma introspection_readonly r : readonly (introspection_prog r).
Proof.
  unfold introspection_prog, lookup_prog. destruct (parse_lookup_request r) as [req|]; [|done].
  destruct (_ && _); [done|]. cbn [readonly]. intros [client|]; [|done]. destruct (_ && _); [done|].
  cbn [readonly]. intros cfg. destruct (parse_token _ _) as [token|]; [|done].
  assert (Hrest : forall res, readonly (PLookup TRefresh (signature_string token) (fun x => match x with
        | None => PRet (OIntro res)
        | Some l => PLoad l (fun f => if negb (seqb (cd_client_id f) (lq_client_id req))
            then PRet (OError (InvalidClient "wrong client"))
            else describe_prog l RefreshToken (fun res => PRet (OIntro res))) end))).
  { intros res. cbn [readonly]. intros [l|]; [|done]. cbn [readonly]. intros f. destruct (negb _); [done|]. by apply describe_readonly. }
  cbv zeta. cbn [readonly]. intros [l|]; [|exact (Hrest _)]. cbn [readonly]. intros a. destruct (negb _); [done|].
  apply describe_readonly. exact Hrest.
Qed.

Lemma authorization_get_readonly ev r : rq_method r = "GET" -> readonly (authorization_prog ev r).
Proof.
  intros Hm. unfold authorization_prog. destruct (parse_authorization_request r) as [req|]; [|done].
  destruct (negb _); [done|]. cbn [readonly]. intros [client|]; [|done]. destruct (negb _); [done|]. by rewrite Hm.
Qed.

(** ** C28 *)
Lemma c28_concurrent : forall m calls w i w' c,
  reaches (start m calls) w -> wstep i w w' -> calls !! i = Some c ->
  (exists now r required x, c = CAuthorize now r required x) \/
  (exists ev r x, c = CServe ev r x /\
     (endpoint r "introspect" \/ (endpoint r "authorize" /\ rq_method r = "GET") \/ other_path r)) ->
  wo_mem w' = wo_mem w.
Proof.
  intros m calls w i w' c R St Hc Hr. eapply readonly_steps; [exact Hc| |exact R|exact St].
  destruct Hr as [(now & r & required & x & ->)|(ev & r & x & -> & H)]; cbn [body_prog].
  - apply readonly_bind; [apply decision_readonly|]. intros [|e|]; try done.
    by destruct (write_bearer_error x (GErr e)) as [[? ?]|].
  - cbv zeta. match goal with |- readonly (if _ then PWait _ ?p else _) => enough (HW : readonly p) by (by destruct (reads_body r)) end.
    apply readonly_bind; [|intros o; by destruct (write_outcome x o)]. unfold handle_prog. cbv zeta.
    destruct H as [H|[[H Hm]|H]].
    + apply endpoint_introspect in H. rewrite H. cbn. apply introspection_readonly.
    + apply endpoint_authorize in H. rewrite H. change (seqb "authorize" "authorize") with true. by apply authorization_get_readonly.
    + apply other_path_spec in H as (H1 & H2 & H3 & H4). apply seqb_false in H1, H2, H3, H4. by rewrite H1, H2, H3, H4.
Qed.

(** ** C43 *)
Lemma take_pick calls order n i c : order !! n = Some i -> calls !! i = Some c ->
  pick calls (take (S n) order) = pick calls (take n order) ++ [c].
Proof. intros Hn Hc. rewrite (take_S_r _ _ _ Hn). by apply pick_snoc. Qed.

Lemma one_by_one_app s cs1 cs2 :
  snd (one_by_one s (cs1 ++ cs2)) = snd (one_by_one s cs1) ++ snd (one_by_one (fst (one_by_one s cs1)) cs2).
Proof.
  revert s. induction cs1 as [|c cs1 IH]; intros s; cbn [app one_by_one]; [done|].
  destruct (perform s c) as [s1 x]. specialize (IH s1). destruct (one_by_one s1 (cs1 ++ cs2)), (one_by_one s1 cs1). cbn in *.
  by rewrite IH.
Qed.

Lemma c43_concurrent : forall m s calls w i ev r,
  holds m s -> reaches (start m calls) w ->
  calls !! i = Some (CServe ev r new_rw) -> ended w i None ->
  (wo_locked w = true -> last (wo_order w) <> Some i) /\
  exists n, wo_order w !! n = Some i /\
    fst (one_by_one s (pick calls (take (S n) (wo_order w)))) = fst (one_by_one s (pick calls (take n (wo_order w)))).
Proof.
  intros m s calls w i ev r H R Hc He. split.
  { intros Hl Hi. destruct (c53_released _ _ _ _ H R Hl) as (j & w' & Hj & Hn & _). rewrite Hi in Hj. injection Hj as <-.
    by apply (Hn None). }
  assert (G : good s calls w) by (eapply good_reaches; [|exact R]; by apply start_good).
  pose proof (good_ended_order _ _ _ _ _ G He) as Hin. apply elem_of_list_In, elem_of_list_lookup in Hin as [n Hn].
  exists n. split; [done|]. pose proof (good_replies _ _ _ _ _ _ G Hn He) as Hv.
  rewrite (take_pick _ _ _ _ _ Hn Hc), one_by_one_snoc. cbn [fst]. set (s1 := fst (one_by_one s (pick calls (take n (wo_order w))))) in *.
  assert (Hs : snd (perform s1 (CServe ev r new_rw)) = None).
  { assert (Hi : forall j, In j (wo_order w) -> is_Some (calls !! j)) by by destruct G.
    rewrite <- (take_drop (S n) (wo_order w)) in Hv.
    assert (Hpa : forall a b, pick calls (a ++ b) = pick calls a ++ pick calls b).
    { intros a b. induction a as [|x a IHa]; cbn; [done|]. rewrite IHa. by destruct (calls !! x). }
    rewrite Hpa, one_by_one_app, (take_pick _ _ _ _ _ Hn Hc), one_by_one_snoc in Hv. cbn [snd] in Hv. fold s1 in Hv.
    assert (Hlen : length (snd (one_by_one s (pick calls (take n (wo_order w))))) = n).
    { rewrite one_by_one_length, pick_length.
      - apply take_length_le. apply lookup_lt_Some in Hn. lia.
      - intros j Hj. apply Hi. rewrite <- (take_drop n (wo_order w)). apply in_app_iff. by left. }
    rewrite lookup_app_l in Hv by (rewrite app_length, Hlen; cbn; lia).
    rewrite lookup_app_r in Hv by lia. rewrite Hlen, Nat.sub_diag in Hv. cbn [lookup list_lookup] in Hv. by injection Hv. }
  cbn [perform] in Hs |- *. destruct (c54_answer ev s1 r) as [(s' & w1 & code & h & E & _)|[E _]]; rewrite E in Hs |- *; [done|done].
Qed.
