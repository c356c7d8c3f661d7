(** Proofs about the calls of some clients among the calls of others. *)
From Verif.Model Require Import Server History.
From Verif.Spec Require Import TokenSpec ScopeSpec WireSpec RequestSpec ServerSpec HistorySpec LocalSpec.
From Verif.Proof Require Import StrFacts UrlFacts WireFacts ServerFacts Steps RequestParse ServerProofs GrantProofs EffectProofs Effects HistoryFacts LocalProofs.

#[local] Open Scope string_scope.
#[local] Opaque handle parse_token.

Notation call_of := (fun y => (st_op y, st_answer y)).

(** Calls that leave alone what the picked calls mention can be left out. *)
Lemma left_out (K : record -> Prop) (mine : op -> bool) s l t : run s l t ->
  (forall y x, In y l -> mine (st_op y) = true -> call_mentions (server_secret s) (st_op y) x -> K x) ->
  (forall y x, In y l -> mine (st_op y) = false -> K x -> agree (st_before y) (st_after y) x) ->
  exists l' t', run s l' t' /\ map call_of l' = map call_of (List.filter (fun y => mine (st_op y)) l) /\
    forall x, K x -> agree t t' x.
Proof.
  induction 1 as [|l u o H IH]; intros HM HL.
  - exists [], s. split; [constructor|]. split; [done|]. intros x _. apply agree_refl.
  - destruct IH as (l' & t' & H' & E & HA); [intros y x Hy; apply HM; by right|intros y x Hy; apply HL; by right|].
    destruct (mine o) eqn:Em; cbn [List.filter]; change (st_op (step_of u o)) with o; rewrite Em.
    + pose proof (run_config _ _ _ H) as C1. pose proof (run_config _ _ _ H') as C2.
      destruct (op_local u t' o) as (Ea & Hx & _); [congruence| |].
      { intros x Hx. apply HA. apply (HM (step_of u o)); [by left|done|]. unfold server_secret in *. by rewrite <- C1. }
      exists (step_of t' o :: l'), (fst (do_op t' o)). split; [by constructor|]. cbn [map step_of st_op st_answer].
      rewrite E, Ea. split; [done|]. intros x Kx. apply Hx. by apply HA.
    + exists l', t'. split; [done|]. split; [done|]. intros x Kx. pose proof (HA x Kx) as E1.
      pose proof (HL (step_of u o) x (or_introl eq_refl) Em Kx) as E2. cbn [step_of st_before st_after] in E2.
      destruct x; unfold agree in *; congruence.
Qed.

Lemma acts_some r : exists id, acts_for r id.
Proof.
  destruct (decide (last_segment (rq_path r) = "authorize")) as [H|H].
  - exists (form_param r "client_id"). left. split; [by apply endpoint_authorize|done].
  - exists (fst (client_credentials r)). right. split; [|done]. by rewrite endpoint_authorize.
Qed.
Lemma do_serve s ev r : fst (do_op s (Serve ev r)) = res_server (handle ev s r).
Proof. cbn [do_op]. by destruct (handle ev s r). Qed.
Lemma do_answer s ev r s' o : handle ev s r = Done s' o -> snd (do_op s (Serve ev r)) = Answered o.
Proof. intros H. cbn [do_op]. by rewrite H. Qed.

(** The entries under the names in [K] belong to the clients in [A]. *)
Definition held (A : string -> Prop) (K : record -> Prop) (mine : op -> bool) (secret : string) (l : list step) (s : server) : Prop :=
  forall k sg c, cell s k sg = Some c -> K (rec k sg) ->
    A (cd_client_id c) /\ (k <> KC -> cd_code c = "" \/ K (Code (cd_code c))) /\
    (k = KC -> exists y, In y l /\ mine (st_op y) = true /\ gives secret (st_answer y) (Code sg)).

Lemma vacant_stays s ev r k sg : cell s k sg = None -> ~ gives (server_secret s) (snd (do_op s (Serve ev r))) (rec k sg) ->
  cell (fst (do_op s (Serve ev r))) k sg = None.
Proof.
  intros Hn Hg. rewrite do_serve. destruct k; cbn [cell rec] in *.
  - destruct (access_effect ev s r sg) as [(t & c & H & Hs & _)|[(_ & ->)|(_ & _ & c & E & _)]]; [|done|congruence].
    exfalso. apply Hg. rewrite (do_answer _ _ _ _ _ H). exists (OToken t). split; [done|]. by exists t.
  - destruct (refresh_effect ev s r sg) as [(t & c & H & Hs & _)|[(_ & ->)|(_ & c & E & _)]]; [|done|congruence].
    exfalso. apply Hg. rewrite (do_answer _ _ _ _ _ H). exists (OToken t). split; [done|]. by exists t.
  - destruct (code_effect ev s r sg) as [(c & d & H & Hs & _)|[(_ & -> & _)|(_ & _ & d & E & _)]]; [|done|congruence].
    exfalso. apply Hg. rewrite (do_answer _ _ _ _ _ H). exists (OCode c). split; [done|]. by exists c.
Qed.

(** The calls of the others leave them alone, *)
Lemma others_leave A K mine l u o x : held A K mine (server_secret u) l u -> (forall id, K (Client id) -> A id) ->
  mine o = false -> divides A mine o -> (forall y, gives (server_secret u) (snd (do_op u o)) y -> ~ K y) ->
  (forall ev r q y, o = Serve ev r -> In y l -> mine (st_op y) = true -> gives (server_secret u) (st_answer y) (Code q) -> ~ replays u r q) ->
  K x -> agree u (fst (do_op u o)) x.
Proof.
  intros Hh HA Hm Hd Hg Hr HK. destruct o as [ev r|now r required|id e|id|name e|name].
  - destruct (acts_some r) as [id Hid]. cbn in Hd. apply Hd in Hid as Hi. assert (Hno : ~ A id) by (rewrite Hi, Hm; done).
    destruct (serve_registry u ev r) as [HC HU].
    assert (HX : forall k sg, x = rec k sg -> agree u (fst (do_op u (Serve ev r))) x).
    { intros k sg ->. apply agree_cell. destruct (cell u k sg) as [c|] eqn:E.
      2:{ symmetry. apply vacant_stays; [done|]. intros G. exact (Hg _ G HK). }
      destruct (Hh k sg c E HK) as (Ha & Hcode & _). assert (Hne : cd_client_id c <> id) by (by intros <-).
      assert (HN : forall q, replays u r q -> q = "" \/ K (Code q) -> False).
      { intros q Hq [->|Kq].
        - destruct Hq as (_ & _ & Hn & _). by apply names_nonempty in Hn.
        - pose proof Hq as (_ & _ & _ & d & Hd' & _). destruct (Hh KC q d Hd' Kq) as (_ & _ & Hy).
          destruct (Hy eq_refl) as (y & H1 & H2 & H3). exact (Hr ev r q y eq_refl H1 H2 H3 Hq). }
      destruct (c44_exact ev u r id sg c Hid Hne) as (H1 & H2 & H3). rewrite do_serve.
      assert (HG : forall o, handle ev u r = Done (res_server (handle ev u r)) o ->
        match rec k sg with
        | Access a => hands_out_access (server_secret u) o a
        | Refresh a => hands_out_refresh (server_secret u) o a
        | Code a => hands_out_code (server_secret u) o a
        | _ => False end -> False).
      { intros o Ho Hgo. apply (Hg (rec k sg)); [|done]. rewrite (do_answer _ _ _ _ _ Ho). by exists o. }
      destruct k; cbn [cell rec] in *.
      - destruct (H1 E) as [->|[(o & Ho & Hgo)|(_ & Hq)]]; [done|by destruct (HG o Ho)|]. by destruct (HN _ Hq (Hcode ltac:(done))).
      - destruct (H2 E) as [->|[(o & Ho & Hgo)|(_ & Hq)]]; [done|by destruct (HG o Ho)|]. by destruct (HN _ Hq (Hcode ltac:(done))).
      - destruct (H3 E) as [->|(o & Ho & Hgo)]; [done|by destruct (HG o Ho)]. }
    destruct x as [i|n|sg|sg|sg]; [unfold agree; by rewrite HC|unfold agree; by rewrite HU|by apply (HX KA sg)|by apply (HX KR sg)|by apply (HX KC sg)].
  - apply agree_refl.
  - cbn in Hd. destruct x as [i|n|sg|sg|sg]; try done. cbn. rewrite lookup_insert_ne; [done|]. intros ->. apply HA in HK. rewrite Hm in Hd. by apply Hd in HK.
  - cbn in Hd. destruct x as [i|n|sg|sg|sg]; try done. cbn. rewrite lookup_delete_ne; [done|]. intros ->. apply HA in HK. rewrite Hm in Hd. by apply Hd in HK.
  - cbn in Hd. congruence.
  - cbn in Hd. congruence.
Qed.

(** so they still belong to the clients. *)
Lemma held_others A K mine secret l u o : held A K mine secret l u -> (forall x, K x -> agree u (fst (do_op u o)) x) ->
  held A K mine secret (step_of u o :: l) (fst (do_op u o)).
Proof.
  intros Hh Hag k sg c E HK. pose proof (Hag _ HK) as Ea. apply agree_cell in Ea. rewrite <- Ea in E.
  destruct (Hh k sg c E HK) as (H1 & H2 & H3). split; [done|]. split; [done|]. intros Hk. destruct (H3 Hk) as (y & ? & ?). exists y. split; [by right|done].
Qed.
Lemma held_mine A K mine l u o : held A K mine (server_secret u) l u -> mine o = true -> divides A mine o ->
  (forall x, call_mentions (server_secret u) o x -> K x) ->
  held A K mine (server_secret u) (step_of u o :: l) (fst (do_op u o)).
Proof.
  intros Hh Hm Hd HM.
  assert (HS : forall k sg c, cell u k sg = Some c -> K (rec k sg) -> 
    A (cd_client_id c) /\ (k <> KC -> cd_code c = "" \/ K (Code (cd_code c))) /\
    (k = KC -> exists y, In y (step_of u o :: l) /\ mine (st_op y) = true /\ gives (server_secret u) (st_answer y) (Code sg))).
  { intros k sg c E HK. destruct (Hh k sg c E HK) as (H1 & H2 & H3). split; [done|]. split; [done|].
    intros Hk. destruct (H3 Hk) as (y & ? & ?). exists y. split; [by right|done]. }
  intros k sg c E HK. destruct o as [ev r|now r required|id e|id|name e|name]; try (apply HS; [by destruct k|done]).
  rewrite do_serve in E. cbn in Hd.
  assert (HA : forall i, acts_for r i -> A i) by (intros i Hi; by apply (Hd i Hi)).
  assert (HCS : forall q, code_source u r q -> q = "" \/ K (Code q)).
  { intros q [[Hp _]|[-> _]]; [|by left]. right. apply HM. by constructor. }
  destruct k; cbn [cell rec] in *.
  - destruct (access_effect ev u r sg) as [(t & c' & H & Hs & Hc & Ha & _ & _ & Hq)|[(_ & Hc)|(_ & Hc & _)]]; [| |congruence].
    + assert (c' = c) as -> by congruence. split; [by apply HA|]. split; [intros _; by apply HCS|done].
    + rewrite Hc in E. by apply (HS KA).
  - destruct (refresh_effect ev u r sg) as [(t & c' & H & Hs & _ & Hc & Ha & _ & _ & Hq)|[(_ & Hc)|(Hc & _)]]; [| |congruence].
    + assert (c' = c) as -> by congruence. split; [by apply HA|]. split; [intros _; by apply HCS|done].
    + rewrite Hc in E. by apply (HS KR).
  - destruct (code_effect ev u r sg) as [(c0 & d & H & Hs & Hc & _ & He & _ & Ha & _)|[(_ & Hc & _)|(_ & _ & d & Hd' & _ & Hc)]].
    + assert (d = c) as -> by congruence. split; [apply HA; left; by split|]. split; [done|]. intros _. eexists. split; [by left|].
      split; [exact Hm|]. cbn [step_of st_answer]. rewrite (do_answer _ _ _ _ _ H). exists (OCode c0). split; [done|]. by exists c0.
    + rewrite Hc in E. by apply (HS KC).
    + rewrite Hc in E. injection E as <-. by apply (HS KC) in Hd'.
Qed.

Lemma c69_calls : forall (K : record -> Prop) mine cfg l s, history cfg l s ->
  (forall y x, In y l -> mine (st_op y) = true -> call_mentions (cfg_secret cfg) (st_op y) x -> K x) ->
  (forall y x, In y l -> mine (st_op y) = false -> K x -> agree (st_before y) (st_after y) x) ->
  undisturbed cfg mine l.
Proof.
  intros K mine cfg l s H HM HL. destruct (left_out K mine _ _ _ H HM HL) as (l' & t' & H' & E & _). by exists l', t'.
Qed.

Lemma c69_groups : forall (A : string -> Prop) mine cfg l s, history cfg l s ->
  (forall y, In y l -> divides A mine (st_op y)) ->
  (forall y z x, In y l -> In z l -> mine (st_op y) = true -> mine (st_op z) = false ->
     call_mentions (cfg_secret cfg) (st_op y) x -> ~ gives (cfg_secret cfg) (st_answer z) x) ->
  (forall y z ev r q, In y l -> In z l -> mine (st_op y) = true -> mine (st_op z) = false ->
     gives (cfg_secret cfg) (st_answer y) (Code q) -> st_op z = Serve ev r -> ~ replays (st_before z) r q) ->
  undisturbed cfg mine l.
Proof.
  intros A mine cfg L s H HD HM HR.
  set (K := fun x : record => match x with Client id => A id | _ => forall z, In z L -> mine (st_op z) = false -> ~ gives (cfg_secret cfg) (st_answer z) x end).
  assert (HKm : forall y x, In y L -> mine (st_op y) = true -> call_mentions (cfg_secret cfg) (st_op y) x -> K x).
  { intros y x Hy Hm Hx.
    assert (HN : forall z, In z L -> mine (st_op z) = false -> ~ gives (cfg_secret cfg) (st_answer z) x) by (intros z Hz Hzm; exact (HM y z x Hy Hz Hm Hzm Hx)).
    destruct x as [id|n|sg|sg|sg]; try exact HN. unfold K. pose proof (HD y Hy) as Hd.
    destruct (st_op y) as [ev r|now r required|i e|i|name e|name]; cbn in Hd, Hx.
    - inversion Hx; subst. by apply (Hd id).
    - by destruct Hx as (? & ? & _ & _ & ?).
    - injection Hx as ->. by apply Hd.
    - injection Hx as ->. by apply Hd.
    - done.
    - done. }
  assert (HI : forall l u, run (new_server cfg) l u -> (forall y, In y l -> In y L) ->
    held A K mine (cfg_secret cfg) l u /\
    forall y x, In y l -> mine (st_op y) = false -> K x -> agree (st_before y) (st_after y) x).
  { intros l u Hr. induction Hr as [|l u o Hr IH]; intros HL.
    - split; [|done]. intros k sg c E. exfalso. destruct k; cbn in E; by rewrite lookup_empty in E.
    - destruct IH as [IH1 IH2]; [intros y Hy; apply HL; by right|].
      pose proof (run_config _ _ _ Hr) as Hc. cbn in Hc.
      assert (Es : server_secret u = cfg_secret cfg) by (unfold server_secret; by rewrite Hc).
      assert (Hin : In (step_of u o) L) by (apply HL; by left). pose proof (HD _ Hin) as Hd. cbn [step_of st_op] in Hd.
      destruct (mine o) eqn:Em.
      + split.
        * rewrite <- Es. apply held_mine; [by rewrite Es|done|done|]. rewrite Es. intros x Hx. exact (HKm _ x Hin Em Hx).
        * intros y x [<-|Hy] Hy' Kx; [cbn [step_of st_op] in Hy'; congruence|by apply IH2].
      + assert (Hag : forall x, K x -> agree u (fst (do_op u o)) x).
        { intros x Kx. apply (others_leave A K mine l u o x); [by rewrite Es|done|done|done| | |done].
          - rewrite Es. intros y Gy Ky. pose proof Gy as (o' & _ & Gy'). destruct y; try done; exact (Ky _ Hin Em Gy).
          - rewrite Es. intros ev r q y -> Hy Hm Gy. apply (HR y _ ev r q (HL y (or_intror Hy)) Hin Hm Em Gy eq_refl). }
        split; [by apply held_others|]. intros y x [<-|Hy] Hy' Kx; [by apply Hag|by apply IH2]. }
  destruct (HI L s H (fun y Hy => Hy)) as [_ HL]. by eapply c69_calls.
Qed.
