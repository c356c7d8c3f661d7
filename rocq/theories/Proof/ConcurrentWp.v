(** What a program does when nobody interferes. *)
From Verif.Model Require Import Server History Concurrent.
From Verif.Spec Require Import ConcurrentSpec.
From Verif.Proof Require Import GrantProofs.

(** Run alone from [m], whatever the order of map visits and the addresses of
    new objects, [p] makes no invalid access and ends in [Q]. *)
Fixpoint wp {A} (p : prog A) (m : mem) (Q : mem -> option A -> Prop) : Prop :=
  match p with
  | PRet a => Q m (Some a)
  | PPanic => Q m None
  | PLookup t k f => wp (f (me_table m t !! k)) m Q
  | PInsert t k l q => wp q (me_set_table m t (<[k := l]> (me_table m t))) Q
  | PDelete t k q => wp q (me_set_table m t (delete k (me_table m t))) Q
  | PKeys t f => forall keys, Permutation keys (map fst (map_to_list (me_table m t))) -> wp (f keys) m Q
  | PNew c f => forall l, me_heap m !! l = None -> wp (f l) (me_set_heap m (<[l := c]> (me_heap m))) Q
  | PLoad l f => exists c, me_heap m !! l = Some c /\ wp (f c) m Q
  | PUse l q => exists c, me_heap m !! l = Some c /\
                  wp q (me_set_heap m (<[l := mark_used c]> (me_heap m))) Q
  | PClient k f => wp (f (me_clients m !! k)) m Q
  | PUser k f => wp (f (me_users m !! k)) m Q
  | PConfig f => wp (f (me_config m)) m Q
  | PSetConfig cfg q => wp q (me_set_config m cfg) Q
  | PSetClient k e q => wp q (me_set_clients m (match e with Some x => <[k := x]> (me_clients m) | None => delete k (me_clients m) end)) Q
  | PSetUser k e q => wp q (me_set_users m (match e with Some x => <[k := x]> (me_users m) | None => delete k (me_users m) end)) Q
  | PWait _ q => wp q m Q
  | PLock _ | PUnlock _ => False
  end.

Lemma wp_mono {A} (p : prog A) : forall m (Q Q' : mem -> option A -> Prop),
  (forall m' x, Q m' x -> Q' m' x) -> wp p m Q -> wp p m Q'.
Proof.
  induction p; cbn; intros m Q Q' HQ Hp; eauto.
  - destruct Hp as (c & Hc & Hp). eauto.
  - destruct Hp as (c & Hc & Hp). eauto.
Qed.

Lemma wp_bind {A B} (p : prog A) : forall (g : A -> prog B) m Q,
  wp p m (fun m' x => match x with Some a => wp (g a) m' Q | None => Q m' None end) ->
  wp (pbind p g) m Q.
Proof.
  induction p; cbn; intros g m Q Hp; eauto.
  - destruct Hp as (c & Hc & Hp). eauto.
  - destruct Hp as (c & Hc & Hp). eauto.
Qed.

(** An access of the program keeps the promise. *)
Lemma wp_access {A} (p : prog A) m m' p' Q : access m p m' p' -> wp p m Q -> wp p' m' Q.
Proof.
  intros Ha Hp. destruct Ha; cbn in Hp; auto.
  - destruct Hp as (c' & Hc' & Hp). congruence.
  - destruct Hp as (c' & Hc' & Hp). congruence.
Qed.

(** There is always a next access or the end. *)
Definition over {A} (p : prog A) : bool := match p with PRet _ | PPanic => true | _ => false end.
Lemma wp_progress {A} (p : prog A) m Q : wp p m Q -> over p = true \/ exists m' p', access m p m' p'.
Proof.
  destruct p; cbn; intros Hp; try by left.
  all: right.
  all: try (do 2 eexists; constructor; fail).
  - do 2 eexists. by apply acc_keys.
  - do 2 eexists. apply acc_new with (l := fresh (dom (me_heap m))).
    apply not_elem_of_dom. apply is_fresh.
  - destruct Hp as (c & Hc & _). do 2 eexists. by apply acc_load with (c := c).
  - destruct Hp as (c & Hc & _). do 2 eexists. by apply acc_use with (c := c).
Qed.

(** A deferred Unlock follows the program step by step. *)
Lemma defer_access {A} (p : prog A) m m' q : over p = false ->
  access m (defer_unlock p) m' q -> exists p', access m p m' p' /\ q = defer_unlock p'.
Proof.
  destruct p; cbn; intros Ho Ha; try discriminate; inversion Ha; subst;
    (eexists; split; [econstructor; eassumption|reflexivity]).
Qed.
Lemma access_defer {A} (p : prog A) m m' p' :
  access m p m' p' -> access m (defer_unlock p) m' (defer_unlock p').
Proof.
  intros Ha. destruct Ha as [m t k f|m t k l p|m t k p|m t f keys H|m c f l H|m l f c H|m l p c H|m k f|m k f|m f|m c p|m k e p|m k e p|m x p]; cbn.
  - exact (acc_lookup m t k (fun x => defer_unlock (f x))).
  - constructor.
  - constructor.
  - exact (acc_keys m t (fun x => defer_unlock (f x)) keys H).
  - exact (acc_new m c (fun x => defer_unlock (f x)) l H).
  - exact (acc_load m l (fun x => defer_unlock (f x)) c H).
  - exact (acc_use m l (defer_unlock p) c H).
  - exact (acc_client m k (fun x => defer_unlock (f x))).
  - exact (acc_user m k (fun x => defer_unlock (f x))).
  - exact (acc_config m (fun x => defer_unlock (f x))).
  - constructor.
  - constructor.
  - constructor.
  - constructor.
Qed.

(** ** The memory and the server it holds *)

Definition sv_set_table (s : server) (t : table) (x : gmap string credential) : server :=
  match t with TAccess => set_access s x | TRefresh => set_refresh s x | TCodes => set_codes s x end.

Lemma me_table_set m t x t' :
  me_table (me_set_table m t x) t' = match t, t' with
    | TAccess, TAccess | TRefresh, TRefresh | TCodes, TCodes => x | _, _ => me_table m t' end.
Proof. by destruct t, t'. Qed.
Lemma sv_table_set s t x t' :
  sv_table (sv_set_table s t x) t' = match t, t' with
    | TAccess, TAccess | TRefresh, TRefresh | TCodes, TCodes => x | _, _ => sv_table s t' end.
Proof. by destruct t, t'. Qed.
Lemma me_table_same m t x : me_table (me_set_table m t x) t = x.
Proof. by destruct t. Qed.
Lemma me_table_other m t x t' : t <> t' -> me_table (me_set_table m t x) t' = me_table m t'.
Proof. by destruct t, t'. Qed.
Lemma sv_table_same s t x : sv_table (sv_set_table s t x) t = x.
Proof. by destruct t. Qed.
Lemma sv_table_other s t x t' : t <> t' -> sv_table (sv_set_table s t x) t' = sv_table s t'.
Proof. by destruct t, t'. Qed.
Lemma table_dec (t t' : table) : {t = t'} + {t <> t'}.
Proof. decide equality. Qed.

Lemma holds_some m s t k l : holds m s -> me_table m t !! k = Some l ->
  exists c, me_heap m !! l = Some c /\ sv_table s t !! k = Some c.
Proof. intros (_ & _ & _ & H & _) Hl. specialize (H t k). by rewrite Hl in H. Qed.
Lemma holds_none m s t k : holds m s -> me_table m t !! k = None -> sv_table s t !! k = None.
Proof. intros (_ & _ & _ & H & _) Hl. specialize (H t k). by rewrite Hl in H. Qed.

(** No map points to [l]. *)
Definition loose (m : mem) (l : positive) : Prop := forall t k, me_table m t !! k <> Some l.

Lemma holds_new m s l c : holds m s -> me_heap m !! l = None ->
  holds (me_set_heap m (<[l := c]> (me_heap m))) s /\ loose (me_set_heap m (<[l := c]> (me_heap m))) l.
Proof.
  intros H Hl. assert (Hloose : loose m l).
  { intros t k Hk. destruct (holds_some _ _ _ _ _ H Hk) as (d & Hd & _). congruence. }
  split; [|intros t k; specialize (Hloose t k); by destruct t].
  destruct H as (H1 & H2 & H3 & H4 & H5). repeat split; try done.
  - intros t k. specialize (H4 t k). replace (me_table (me_set_heap m _) t) with (me_table m t) by by destruct t.
    destruct (me_table m t !! k) as [l'|] eqn:E; [|done]. destruct H4 as (d & Hd & Hs). exists d. split; [|done].
    cbn. rewrite lookup_insert_ne; [done|]. intros ->. congruence.
  - specialize (H5 t k t' k' l0). destruct t, t'; cbn in *; naive_solver.
  - specialize (H5 t k t' k' l0). destruct t, t'; cbn in *; naive_solver.
Qed.

Lemma holds_insert m s t k l c : holds m s -> loose m l -> me_heap m !! l = Some c ->
  holds (me_set_table m t (<[k := l]> (me_table m t))) (sv_set_table s t (<[k := c]> (sv_table s t))).
Proof.
  intros (H1 & H2 & H3 & H4 & H5) Hloose Hc. split; [by destruct t|]. split; [by destruct t|]. split; [by destruct t|].
  split.
  - intros t' k'. destruct (table_dec t t') as [<-|Ht].
    + rewrite me_table_same, sv_table_same. destruct (decide (k = k')) as [<-|Hk].
      * rewrite !lookup_insert. exists c. by destruct t.
      * rewrite !lookup_insert_ne by done. specialize (H4 t k'). destruct (me_table m t !! k'); by destruct t.
    + rewrite me_table_other, sv_table_other by done. specialize (H4 t' k'). destruct (me_table m t' !! k'); by destruct t.
  - intros t1 k1 t2 k2 l'. destruct (table_dec t t1) as [<-|Ht1]; destruct (table_dec t t2) as [<-|Ht2];
      rewrite ?me_table_same, ?me_table_other by done.
    + rewrite !lookup_insert_Some. intros [[<- <-]|[? E1]] [[<- E]|[? E2]]; try done.
      * by apply Hloose in E2.
      * rewrite <- E in E1. by apply Hloose in E1.
      * eauto.
    + rewrite lookup_insert_Some. intros [[<- <-]|[? E1]] E2; [by apply Hloose in E2|eauto].
    + rewrite lookup_insert_Some. intros E1 [[<- <-]|[? E2]]; [by apply Hloose in E1|eauto].
    + eauto.
Qed.

Lemma holds_delete m s t k : holds m s ->
  holds (me_set_table m t (delete k (me_table m t))) (sv_set_table s t (delete k (sv_table s t))).
Proof.
  intros (H1 & H2 & H3 & H4 & H5). split; [by destruct t|]. split; [by destruct t|]. split; [by destruct t|].
  split.
  - intros t' k'. destruct (table_dec t t') as [<-|Ht].
    + rewrite me_table_same, sv_table_same. destruct (decide (k = k')) as [<-|Hk].
      * by rewrite !lookup_delete.
      * rewrite !lookup_delete_ne by done. specialize (H4 t k'). destruct (me_table m t !! k'); by destruct t.
    + rewrite me_table_other, sv_table_other by done. specialize (H4 t' k'). destruct (me_table m t' !! k'); by destruct t.
  - intros t1 k1 t2 k2 l'. destruct (table_dec t t1) as [<-|Ht1]; destruct (table_dec t t2) as [<-|Ht2];
      rewrite ?me_table_same, ?me_table_other by done; rewrite ?lookup_delete_Some; naive_solver.
Qed.

Lemma holds_use m s t k l c : holds m s -> me_table m t !! k = Some l -> me_heap m !! l = Some c ->
  holds (me_set_heap m (<[l := mark_used c]> (me_heap m))) (sv_set_table s t (<[k := mark_used c]> (sv_table s t))).
Proof.
  intros (H1 & H2 & H3 & H4 & H5) Hk Hc. split; [by destruct t|]. split; [by destruct t|]. split; [by destruct t|].
  split.
  - intros t' k'. replace (me_table (me_set_heap m _) t') with (me_table m t') by by destruct t'.
    destruct (table_dec t t') as [<-|Ht].
    + rewrite sv_table_same. destruct (decide (k = k')) as [<-|Hk'].
      * rewrite Hk, lookup_insert. exists (mark_used c). cbn. by rewrite lookup_insert.
      * rewrite lookup_insert_ne by done. specialize (H4 t k'). destruct (me_table m t !! k') as [l'|] eqn:E; [|done].
        destruct H4 as (d & Hd & Hs). exists d. split; [|done]. cbn. rewrite lookup_insert_ne; [done|].
        intros <-. by destruct (H5 _ _ _ _ _ Hk E).
    + rewrite sv_table_other by done. specialize (H4 t' k'). destruct (me_table m t' !! k') as [l'|] eqn:E; [|done].
      destruct H4 as (d & Hd & Hs). exists d. split; [|done]. cbn. rewrite lookup_insert_ne; [done|].
      intros <-. by destruct (H5 _ _ _ _ _ Hk E).
  - intros t1 k1 t2 k2 l'. specialize (H5 t1 k1 t2 k2 l'). destruct t1, t2; cbn in *; naive_solver.
Qed.

Lemma holds_keys m s t keys : holds m s ->
  Permutation keys (map fst (map_to_list (me_table m t))) -> Permutation keys (map fst (map_to_list (sv_table s t))).
Proof.
  intros H Hp. rewrite Hp. apply NoDup_Permutation; [apply NoDup_fst_map_to_list|apply NoDup_fst_map_to_list|].
  intros k. rewrite !elem_of_list_In, !in_keys. destruct (me_table m t !! k) as [l|] eqn:E.
  - destruct (holds_some _ _ _ _ _ H E) as (c & _ & ->). split; eauto.
  - rewrite (holds_none _ _ _ _ H E). split; by intros [? ?].
Qed.
