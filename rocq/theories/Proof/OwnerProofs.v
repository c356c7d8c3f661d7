(** C73: histories in which the owner also changes the configuration and the
    stored credentials. *)
From Verif.Model Require Import Server History Concurrent Owner.
From Verif.Spec Require Import TokenSpec ScopeSpec WireSpec RequestSpec ServerSpec HistorySpec OwnerSpec.
From Verif.Proof Require Import StrFacts HsFacts TokenProofs UrlFacts Steps ServerFacts RequestProofs ServerProofs GrantProofs EffectProofs Effects HistoryFacts HistoryProofs.
#[local] Opaque do_op handle.

(** ** The last event *)
Lemma latest_cons P l y e later : latest P (y :: l) e later <->
  (P y /\ e = y /\ later = []) \/ (~ P y /\ exists later', later = y :: later' /\ latest P l e later').
Proof.
  split.
  - intros (earlier & H & HP & HN). destruct later as [|z later']; cbn in H; injection H as -> H.
    + left. done.
    + right. split; [apply HN; by left|]. exists later'. split; [done|]. exists earlier. split; [done|]. split; [done|].
      intros y' Hy. apply HN. by right.
  - intros [(HP & -> & ->)|(HN & later' & -> & earlier & -> & HP & HN')].
    + exists l. split; [done|]. split; [done|]. intros ? [].
    + exists earlier. split; [done|]. split; [done|]. intros y' [<-|Hy]; [done|auto].
Qed.
Lemma latest_fun P l e later e' later' : latest P l e later -> latest P l e' later' -> e = e' /\ later = later'.
Proof.
  revert later later'. induction l as [|y l IH]; intros later later' H1 H2.
  - destruct H1 as (e0 & H & _). by destruct later.
  - apply latest_cons in H1, H2. destruct H1 as [(H1 & -> & ->)|(H1 & l1 & -> & Hl1)], H2 as [(H2 & -> & ->)|(H2 & l2 & -> & Hl2)]; try done.
    destruct (IH _ _ Hl1 Hl2) as [-> ->]. done.
Qed.

(** ** One entry over all events *)
Inductive happens (s : server) : event -> server -> Prop :=
| happens_call o : happens s (Called (step_of s o)) (fst (do_op s o))
| happens_config cfg : happens s (Configured cfg) (set_config s cfg)
| happens_store t k c : happens s (Stored t k c) (set_entry s t k c).
Lemma owned_cons y l s' : owned (y :: l) s' -> exists s, owned l s /\ happens s y s'.
Proof. intros H. inversion H; subst; eexists; (split; [eassumption|constructor]). Qed.

Lemma story (B : event -> Prop) (T : event -> event -> Prop) (entry : server -> option credential) (R : event -> credential -> Prop) :
  (forall cfg, entry (new_server cfg) = None) ->
  (forall s y s', happens s y s' ->
     (B y /\ exists c, entry s' = Some c /\ R y c) \/
     (~ B y /\ entry s' = entry s /\ forall e c, entry s = Some c -> R e c -> ~ T e y) \/
     (~ B y /\ entry s' = None /\ forall e c, entry s = Some c -> R e c -> T e y)) ->
  forall l s, owned l s ->
  match entry s with
  | Some c => exists e later, latest B l e later /\ R e c /\ forall y, In y later -> ~ T e y
  | None => forall e later, latest B l e later -> exists y, In y later /\ T e y
  end.
Proof.
  intros Hnew Hstep l. induction l as [|y l IH]; intros s H.
  { inversion H; subst. rewrite Hnew. intros e later (x & Hx & _). by destruct later. }
  apply owned_cons in H as (s0 & H & Hy). specialize (IH _ H). destruct (Hstep _ _ _ Hy) as [(HB & c & Hc & HR)|[(HB & He & HT)|(HB & He & HT)]]; rewrite ?He, ?Hc.
  - exists y, []. split; [apply latest_cons; by left|]. split; [done|]. intros ? [].
  - destruct (entry s0) as [c|].
    + destruct IH as (e & later & Hl & HR & Hn). exists e, (y :: later). split; [apply latest_cons; right; eauto|]. split; [done|].
      intros z [<-|Hz]; [by eapply HT|auto].
    + intros e later Hl. apply latest_cons in Hl as [(? & _)|(_ & later' & -> & Hl)]; [done|].
      destruct (IH _ _ Hl) as (z & Hz & Hz'). exists z. split; [by right|done].
  - intros e later Hl. apply latest_cons in Hl as [(? & _)|(_ & later' & -> & Hl)]; [done|]. destruct (entry s0) as [c|].
    + destruct IH as (e' & later0 & Hl' & HR & Hn). destruct (latest_fun _ _ _ _ _ _ Hl Hl') as [-> ->]. exists y. split; [by left|].
      by eapply HT.
    + destruct (IH _ _ Hl) as (z & Hz & Hz'). exists z. split; [by right|done].
Qed.

(** ** What a stored credential says about its origin *)
Definition code_is (e : event) (code : string) : Prop := forall k, k <> "" -> (belongs_to_code e k <-> k = code).
Definition client_is (e : event) (id : string) : Prop := forall i, belongs_to_client e i <-> i = id.

Lemma code_is_called x ev r t code : served x ev r (OToken t) -> code_rel r (then_secret x) code -> code_is (Called x) code.
Proof.
  intros Hs Hc k Hk. cbn. split.
  - intros (ev' & r' & t' & Hs' & Hp). destruct (served_fun _ _ _ _ _ _ _ Hs Hs') as (<- & <- & _).
    destruct Hc as [(_ & _ & Hc)|[_ Hc]]; [|by apply Hc in Hp]. destruct Hp as (_ & _ & Hp). by eapply names_fun.
  - intros ->. destruct Hc as [Hc|[Hc _]]; [|done]. by exists ev, r, t.
Qed.
Lemma client_is_called x ev r o id : served x ev r o -> acts_for r id -> client_is (Called x) id.
Proof.
  intros Hs Ha i. cbn. split.
  - intros (ev' & r' & o' & Hs' & Ha'). destruct (served_fun _ _ _ _ _ _ _ Hs Hs') as (<- & <- & _). by eapply acts_for_fun.
  - intros ->. by exists ev, r, o.
Qed.

(** A code the server does not know: the refusal changes nothing. *)
Lemma unknown_code_nothing ev s r k : replay_answer ev s r k -> sv_codes s !! k = None -> res_server (handle ev s r) = s.
Proof.
  intros (s' & e & H & (He & Hg & Hn) & Hen & Hed) Hd. rewrite H. cbn.
  rewrite handle_token in H by done. unfold token_endpoint in H.
  destruct (parse_token_request r) as [q|e0] eqn:Hq; [|by injection H].
  pose proof (parse_token_inl r q Hq) as (_ & _ & Hgt & _ & _ & _ & Hcode & _). rewrite Hgt, Hg in H.
  change (known_grant_type "authorization_code") with true in H. cbn [negb] in H.
  destruct (sv_clients s !! tq_client_id q) as [c|]; [|by injection H as <- <-].
  destruct (client_ok c (tq_client_secret q)); cbn [negb] in H; [|by injection H as <- <-].
  change (seqb "authorization_code" PasswordGrantType) with false in H.
  change (seqb "authorization_code" ClientCredentialsGrantType) with false in H.
  change (seqb "authorization_code" AuthorizationCodeGrantType) with true in H. cbv iota in H.
  unfold handle_code in H. rewrite Hcode in H. apply names_spec in Hn as (t & Ht & ->). unfold server_secret in Ht. rewrite Ht in H.
  cbv zeta in H. rewrite Hd in H. by injection H.
Qed.
Lemma refused_nothing s o k : refused_as_unknown (server_secret s) (step_of s o) k -> sv_codes s !! k = None -> fst (do_op s o) = s.
Proof.
  intros (ev & r & e & Hs & Hp & H1 & H2) Hk. apply served_step in Hs as (-> & s' & Hh). rewrite step_serve.
  apply (unknown_code_nothing ev s r k); [|done]. by exists s', e.
Qed.
Lemma refused_nonempty secret x k : refused_as_unknown secret x k -> k <> "".
Proof. intros (ev & r & e & _ & (_ & _ & Hn) & _). by eapply names_nonempty. Qed.

(** ** Access tokens *)
Definition access_from (sg : string) (e : event) (c : credential) : Prop :=
  brings_access e sg (cd_scope c) (cd_expires_at c) /\ client_is e (cd_client_id c) /\ code_is e (cd_code c).

Lemma access_happens sg s y s' : happens s y s' ->
  let B e := exists sc ex, brings_access e sg sc ex in
  (B y /\ exists c, sv_access s' !! sg = Some c /\ access_from sg y c) \/
  (~ B y /\ sv_access s' !! sg = sv_access s !! sg /\
     forall e c, sv_access s !! sg = Some c -> access_from sg e c -> ~ takes_access e y sg) \/
  (~ B y /\ sv_access s' !! sg = None /\
     forall e c, sv_access s !! sg = Some c -> access_from sg e c -> takes_access e y sg).
Proof.
  intros H B. destruct H as [o|cfg|t k c].
  - set (x := step_of s o). change (fst (do_op s o)) with (st_after x).
    assert (Hts : then_secret x = server_secret s) by done.
    assert (HB : B (Called x) -> issues_access (server_secret s) x sg).
    { intros (sc & ex & ev & r & t & Hsv & Hn & _). exists ev, r, (OToken t). split; [done|]. by exists t. }
    pose proof (access_step s o sg) as Hst. cbv zeta in Hst. fold x in Hst.
    destruct Hst as [(ev & r & t & c & Hsv & Hn & Hsg & Ha & Hsc & He & Hcr & Hcode)|[(Hni & Hsame)|(Hni & Hnone & c & Hc & Hwhy)]].
    + left. assert (Hb : brings_access (Called x) sg (cd_scope c) (cd_expires_at c)) by by exists ev, r, t.
      split; [by eexists _, _|]. exists c. split; [done|]. split; [done|].
      split; [by eapply client_is_called|by eapply code_is_called].
    + right. left. split; [by intros Hx; apply Hni, HB|]. split; [done|]. intros e c Hc (_ & Hcl & Hco) [Hr|[(k & Hk & Hu & Hks)|(ev & r & err & id & Hsv & He & Hn & H1 & H2 & Hid & Ha)]].
      * apply revokes_removes in Hr as [Hr _]. change (sv_access (st_after x) !! sg = None) in Hr. congruence.
      * pose proof (refused_nonempty _ _ _ Hu) as Hne. apply (Hco k Hne) in Hk as ->. apply unknown_removes in Hu as [Hu _]; [|done].
        change (fst (do_op s o)) with (st_after x) in Hu. assert (Hx : sv_access (st_after x) !! sg = Some c) by congruence.
        apply Hu in Hx as [_ Hx]. done.
      * apply Hcl in Hid as ->. apply served_step in Hsv as (Ho & s' & Hh).
        assert (sv_access (res_server (handle ev s r)) !! sg = None) as Hx by (apply (half_removes _ _ _ _ c); [by exists s', err|done]).
        unfold x in Hsame. rewrite Ho in Hsame. cbn [step_of st_after] in Hsame. rewrite step_serve in Hsame. congruence.
    + right. right. split; [by intros Hx; apply Hni, HB|]. split; [done|]. intros e c' Hc' (_ & Hcl & Hco). rewrite Hc in Hc'. injection Hc' as <-.
      destruct Hwhy as [Hr|[Hu|(ev1 & r1 & e1 & Hs1 & He1 & Hn1 & Hd1 & Hd2 & Ha1)]].
      * by left.
      * right. left. exists (cd_code c). split; [apply Hco; [by eapply refused_nonempty|done]|]. split; [done|].
        change (is_Some (sv_codes s !! cd_code c)). destruct (sv_codes s !! cd_code c) eqn:Ek; [by eexists|].
        apply refused_nothing in Hu; [|done]. change (fst (do_op s o)) with (st_after x) in Hu. rewrite Hu in Hnone. congruence.
      * right. right. exists ev1, r1, e1, (cd_client_id c). split_and!; try done. by apply Hcl.
  - right. left. split; [by intros (? & ? & [])|]. split; [done|]. by intros ? ? _ _ [].
  - assert (Hother : (t <> TAccess \/ k <> sg) -> ~ B (Stored t k c) /\ sv_access (set_entry s t k c) !! sg = sv_access s !! sg /\
      forall e, ~ takes_access e (Stored t k c) sg).
    { intros Hn. split_and!.
      - intros (? & ? & Hb). destruct t, c; try done. destruct Hb as [-> _]. by destruct Hn.
      - destruct t; try done. destruct Hn as [|Hn]; [done|]. destruct c; cbn; [by rewrite lookup_insert_ne|by rewrite lookup_delete_ne].
      - intros e Ht. destruct t, c; try done. cbn in Ht. by destruct Hn. }
    assert (Hd : (t = TAccess /\ k = sg) \/ (t <> TAccess \/ k <> sg)) by (destruct t; destruct (decide (k = sg)); naive_solver).
    destruct Hd as [[-> ->]|Hn].
    + destruct c as [c|].
      * left. split; [by eexists _, _|]. exists c. split; [apply lookup_insert|]. split; [done|].
        split; [intros i; cbn; naive_solver|intros k _; cbn; naive_solver].
      * right. right. split; [by intros (? & ? & [])|]. split; [apply lookup_delete|]. done.
    + right. left. destruct Hother as (H1 & H2 & H3); [done|]. naive_solver.
Qed.

Lemma access_owned l s sg : owned l s ->
  match sv_access s !! sg with
  | Some c => exists e later, latest (fun e => exists sc ex, brings_access e sg sc ex) l e later /\ access_from sg e c /\
      forall y, In y later -> ~ takes_access e y sg
  | None => forall e later, latest (fun e => exists sc ex, brings_access e sg sc ex) l e later ->
      exists y, In y later /\ takes_access e y sg
  end.
Proof.
  apply (story (fun e => exists sc ex, brings_access e sg sc ex) (fun e y => takes_access e y sg)
           (fun s => sv_access s !! sg) (access_from sg)); [by intros cfg|].
  intros s0 y s1 Hh. exact (access_happens sg s0 y s1 Hh).
Qed.

Lemma brings_access_fun e sg sc ex sc' ex' : brings_access e sg sc ex -> brings_access e sg sc' ex' -> sc = sc' /\ ex = ex'.
Proof.
  destruct e as [x|cfg|[] k [c|]]; try done; cbn.
  - intros (ev & r & t & Hs & _ & -> & ->) (ev' & r' & t' & Hs' & _ & -> & ->).
    by destruct (served_fun _ _ _ _ _ _ _ Hs Hs') as (<- & _ & [= <-]).
  - by intros (_ & -> & ->) (_ & -> & ->).
Qed.

Lemma c73_access : forall l s now r str sg required w, owned l s ->
  bearer r str -> names (server_secret s) str sg ->
  (exists w', authorize now s r required w = Some (true, w')) <->
  (exists e later sc expires, latest (fun y => exists sc expires, brings_access y sg sc expires) l e later /\
     brings_access e sg sc expires /\ covers sc required /\ (now <= expires)%Z /\
     forall y, In y later -> ~ takes_access e y sg).
Proof.
  intros l s now r str sg required w H Hb Hn. rewrite (names_bearer_access _ _ _ _ _ _ _ Hb Hn).
  pose proof (access_owned _ _ sg H) as HL. destruct (sv_access s !! sg) as [c|].
  - destruct HL as (e & later & Hl & (Hbr & _) & Hend). split.
    + intros (? & [= <-] & H1 & H2). by exists e, later, (cd_scope c), (cd_expires_at c).
    + intros (e' & later' & sc & ex & Hl' & Hbr' & H1 & H2 & _). destruct (latest_fun _ _ _ _ _ _ Hl Hl') as [<- <-].
      destruct (brings_access_fun _ _ _ _ _ _ Hbr Hbr') as [<- <-]. by exists c.
  - split; [by intros (? & ? & _)|]. intros (e' & later' & sc & ex & Hl' & Hbr' & H1 & H2 & H3).
    destruct (HL _ _ Hl') as (y & Hy & Hend). by apply H3 in Hy.
Qed.

(** ** Refresh tokens *)
Definition refresh_from (sg : string) (e : event) (c : credential) : Prop :=
  brings_refresh e sg (cd_client_id c) (cd_scope c) (cd_expires_at c) /\ code_is e (cd_code c).

Lemma refresh_happens sg s y s' : happens s y s' ->
  let B e := exists id sc ex, brings_refresh e sg id sc ex in
  (B y /\ exists c, sv_refresh s' !! sg = Some c /\ refresh_from sg y c) \/
  (~ B y /\ sv_refresh s' !! sg = sv_refresh s !! sg /\
     forall e c, sv_refresh s !! sg = Some c -> refresh_from sg e c -> ~ takes_refresh e y sg) \/
  (~ B y /\ sv_refresh s' !! sg = None /\
     forall e c, sv_refresh s !! sg = Some c -> refresh_from sg e c -> takes_refresh e y sg).
Proof.
  intros H B. destruct H as [o|cfg|t k c].
  - set (x := step_of s o). change (fst (do_op s o)) with (st_after x).
    assert (HB : B (Called x) -> issues_refresh (server_secret s) x sg /\ ~ redeems_refresh (server_secret s) x sg).
    { intros (id & sc & ex & ev & r & t & Hsv & Hn & Hnr & _). split; [|done]. exists ev, r, (OToken t). split; [done|]. by exists t. }
    pose proof (refresh_step s o sg) as Hst. cbv zeta in Hst. fold x in Hst.
    destruct Hst as [(ev & r & t & c & Hsv & Hn & Hnr & Hsg & Ha & Hsc & He & Hcr & Hcode)|[(Hni & Hsame)|(Hni & Hnone & c & Hc & Hwhy)]].
    + left. assert (Hb : brings_refresh (Called x) sg (cd_client_id c) (cd_scope c) (cd_expires_at c)).
      { exists ev, r, t. split_and!; done. }
      split; [by eexists _, _, _|]. exists c. split; [done|]. split; [done|by eapply code_is_called].
    + right. left. split; [by intros Hx; apply HB in Hx as [? _]|]. split; [done|]. intros e c Hc (_ & Hco) [Hr|[Hr|(k & Hk & Hu & Hks)]].
      * apply revokes_removes in Hr as [_ Hr]. change (sv_refresh (st_after x) !! sg = None) in Hr. congruence.
      * apply redeems_removes in Hr. change (sv_refresh (st_after x) !! sg = None) in Hr. congruence.
      * pose proof (refused_nonempty _ _ _ Hu) as Hne. apply (Hco k Hne) in Hk as ->. apply unknown_removes in Hu as [_ Hu]; [|done].
        change (fst (do_op s o)) with (st_after x) in Hu. assert (Hx : sv_refresh (st_after x) !! sg = Some c) by congruence.
        apply Hu in Hx as [_ Hx]. done.
    + right. right. split; [by intros Hx; apply Hni, HB|]. split; [done|]. intros e c' Hc' (_ & Hco). rewrite Hc in Hc'. injection Hc' as <-.
      destruct Hwhy as [Hr|[Hu|Hr]].
      * by left.
      * right. right. exists (cd_code c). split; [apply Hco; [by eapply refused_nonempty|done]|]. split; [done|].
        change (is_Some (sv_codes s !! cd_code c)). destruct (sv_codes s !! cd_code c) eqn:Ek; [by eexists|].
        apply refused_nothing in Hu; [|done]. change (fst (do_op s o)) with (st_after x) in Hu. rewrite Hu in Hnone. congruence.
      * right. by left.
  - right. left. split; [by intros (? & ? & ? & [])|]. split; [done|]. by intros ? ? _ _ [].
  - assert (Hother : (t <> TRefresh \/ k <> sg) -> ~ B (Stored t k c) /\ sv_refresh (set_entry s t k c) !! sg = sv_refresh s !! sg /\
      forall e, ~ takes_refresh e (Stored t k c) sg).
    { intros Hn. split_and!.
      - intros (? & ? & ? & Hb). destruct t, c; try done. destruct Hb as [-> _]. by destruct Hn.
      - destruct t; try done. destruct Hn as [|Hn]; [done|]. destruct c; cbn; [by rewrite lookup_insert_ne|by rewrite lookup_delete_ne].
      - intros e Ht. destruct t, c; try done. cbn in Ht. by destruct Hn. }
    assert (Hd : (t = TRefresh /\ k = sg) \/ (t <> TRefresh \/ k <> sg)) by (destruct t; destruct (decide (k = sg)); naive_solver).
    destruct Hd as [[-> ->]|Hn].
    + destruct c as [c|].
      * left. split; [by eexists _, _, _|]. exists c. split; [apply lookup_insert|]. split; [done|].
        intros k _; cbn; naive_solver.
      * right. right. split; [by intros (? & ? & ? & [])|]. split; [apply lookup_delete|]. done.
    + right. left. destruct Hother as (H1 & H2 & H3); [done|]. naive_solver.
Qed.

Lemma brings_refresh_fun e sg id sc ex id' sc' ex' : brings_refresh e sg id sc ex -> brings_refresh e sg id' sc' ex' ->
  id = id' /\ sc = sc' /\ ex = ex'.
Proof.
  destruct e as [x|cfg|[] k [c|]]; try done; cbn.
  - intros (ev & r & t & Hs & _ & _ & Ha & -> & ->) (ev' & r' & t' & Hs' & _ & _ & Ha' & -> & ->).
    destruct (served_fun _ _ _ _ _ _ _ Hs Hs') as (<- & <- & [= <-]). split; [by eapply acts_for_fun|done].
  - by intros (_ & -> & -> & ->) (_ & -> & -> & ->).
Qed.

Lemma c73_refresh : forall l s ev r sg id, owned l s ->
  complete_token_request r -> from_client s r id -> presents_refresh (server_secret s) r sg -> enough_random ev s 2 ->
  (exists s' t, handle ev s r = Done s' (OToken t)) <->
  (exists e later sc expires, latest (fun y => exists id sc expires, brings_refresh y sg id sc expires) l e later /\
     brings_refresh e sg id sc expires /\ covers sc (parse_scope (body_param r "scope")) /\
     (ev_now_check ev <= expires)%Z /\ forall y, In y later -> ~ takes_refresh e y sg).
Proof.
  intros l s ev r sg id H Hc Hf (He & Hg & Hn) Hrand. rewrite c59_refresh by done.
  pose proof (story (fun e => exists id sc ex, brings_refresh e sg id sc ex) (fun e y => takes_refresh e y sg)
           (fun s => sv_refresh s !! sg) (refresh_from sg) (fun _ => eq_refl)
           (fun s0 y s1 Hh => refresh_happens sg s0 y s1 Hh) l s H) as HL. cbv beta in HL.
  assert (HA : forall d, refresh_token s (body_param r "refresh_token") d <-> sv_refresh s !! sg = Some d).
  { intros d. split; [intros (sg' & Hn' & Hd); by rewrite (names_fun _ _ _ _ Hn Hn')|]. intros Hd. by exists sg. }
  destruct (sv_refresh s !! sg) as [d|].
  - destruct HL as (e & later & Hl & (Hbr & _) & Hend). split.
    + intros ((d' & Hd & H1 & H2 & H3) & _). apply HA in Hd as [= <-]. exists e, later, (cd_scope d), (cd_expires_at d).
      split; [done|]. split; [by rewrite <- H2|]. done.
    + intros (e' & later' & sc & ex & Hl' & Hbr' & H1 & H2 & _). destruct (latest_fun _ _ _ _ _ _ Hl Hl') as [<- <-].
      destruct (brings_refresh_fun _ _ _ _ _ _ _ _ Hbr Hbr') as (Hid & <- & <-). split; [|done]. exists d. split; [by apply HA|]. done.
  - split; [intros ((d' & Hd & _) & _); by apply HA in Hd|]. intros (e' & later' & sc & ex & Hl' & Hbr' & H1 & H2 & H3).
    destruct (HL _ _ Hl') as (y & Hy & Hend). by apply H3 in Hy.
Qed.

(** ** Codes *)
Definition open_code (s : server) (sg : string) : option credential :=
  match sv_codes s !! sg with Some d => if cd_used d then None else Some d | None => None end.
Definition code_from (sg : string) (e : event) (d : credential) : Prop :=
  brings_code e sg (cd_client_id d) (cd_redirect_uri d) (cd_expires_at d).

Lemma code_happens sg s y s' : happens s y s' ->
  let B e := exists id uri ex, brings_code e sg id uri ex in
  (B y /\ exists c, open_code s' sg = Some c /\ code_from sg y c) \/
  (~ B y /\ open_code s' sg = open_code s sg /\
     forall e c, open_code s sg = Some c -> code_from sg e c -> ~ takes_code y sg) \/
  (~ B y /\ open_code s' sg = None /\
     forall e c, open_code s sg = Some c -> code_from sg e c -> takes_code y sg).
Proof.
  intros H B. destruct H as [o|cfg|t k c].
  - set (x := step_of s o). change (fst (do_op s o)) with (st_after x).
    assert (HB : B (Called x) -> issues_code (server_secret s) x sg).
    { intros (id & uri & ex & ev & r & c & Hsv & Hn & _). exists ev, r, (OCode c). split; [done|]. by exists c. }
    pose proof (code_step s o sg) as Hst. cbv zeta in Hst. fold x in Hst.
    destruct Hst as [(ev & r & c & d & Hsv & Hn & Hd & Hu & H1 & H2 & H3 & H4 & H5 & H6 & H7 & H8 & H9 & H10)|[(Hni & Hsame & Hnr)|(Hni & Hr & d & Hd & Hu & Hd')]].
    + left. assert (Hb : code_from sg (Called x) d) by (exists ev, r, c; split_and!; done).
      split; [by eexists _, _, _|]. exists d. split; [unfold open_code; by rewrite Hd, Hu|done].
    + right. left. split; [by intros Hx; apply Hni, HB|]. split; [unfold open_code; by rewrite Hsame|].
      intros e c Hc _. unfold open_code in Hc. destruct (sv_codes s !! sg) as [d|]; [|done]. destruct (cd_used d) eqn:Eu; [done|]. by apply (Hnr d).
    + right. right. split; [by intros Hx; apply Hni, HB|]. split; [unfold open_code; by rewrite Hd'|done].
  - right. left. split; [by intros (? & ? & ? & [])|]. split; [done|]. by intros ? ? _ _ [].
  - assert (Hother : (t <> TCodes \/ k <> sg) -> ~ B (Stored t k c) /\ open_code (set_entry s t k c) sg = open_code s sg /\
      ~ takes_code (Stored t k c) sg).
    { intros Hn. split_and!.
      - intros (? & ? & ? & Hb). destruct t, c; try done. destruct Hb as [-> _]. by destruct Hn.
      - unfold open_code. destruct t; try done. destruct Hn as [|Hn]; [done|]. destruct c; cbn; [by rewrite lookup_insert_ne|by rewrite lookup_delete_ne].
      - intros Ht. destruct t, c; try done; cbn in Ht; destruct Hn; naive_solver. }
    assert (Hd : (t = TCodes /\ k = sg) \/ (t <> TCodes \/ k <> sg)) by (destruct t; destruct (decide (k = sg)); naive_solver).
    destruct Hd as [[-> ->]|Hn].
    + assert (Ho : open_code (set_entry s TCodes sg c) sg = match c with Some x => if cd_used x then None else Some x | None => None end).
      { unfold open_code. cbn [set_entry sv_codes]. destruct c as [c|]; [by rewrite lookup_insert|by rewrite lookup_delete]. }
      rewrite Ho. clear Ho. destruct c as [c|].
      * destruct (cd_used c) eqn:Eu.
        -- right. right. split; [intros (? & ? & ? & _ & _ & _ & _ & Hu); congruence|]. split; [done|]. by intros _ _ _ _.
        -- left. split; [by eexists _, _, _|]. by exists c.
      * right. right. split; [by intros (? & ? & ? & [])|]. done.
    + right. left. destruct Hother as (H1 & H2 & H3); [done|]. naive_solver.
Qed.

Lemma brings_code_fun e sg id uri ex id' uri' ex' : brings_code e sg id uri ex -> brings_code e sg id' uri' ex' ->
  id = id' /\ uri = uri' /\ ex = ex'.
Proof.
  destruct e as [x|cfg|[] k [c|]]; try done; cbn.
  - intros (ev & r & c & Hs & _ & -> & Hu & ->) (ev' & r' & c' & Hs' & _ & -> & Hu' & ->).
    destruct (served_fun _ _ _ _ _ _ _ Hs Hs') as (<- & <- & [= <-]). rewrite Hu in Hu'. by injection Hu' as <-.
  - by intros (_ & -> & -> & -> & _) (_ & -> & -> & -> & _).
Qed.

Lemma c73_code : forall l s ev r sg id, owned l s ->
  complete_token_request r -> from_client s r id -> presents_code (server_secret s) r sg -> enough_random ev s 2 ->
  (exists s' t, handle ev s r = Done s' (OToken t)) <->
  (exists e later uri expires, latest (fun y => exists id uri expires, brings_code y sg id uri expires) l e later /\
     brings_code e sg id uri expires /\ query_unescape (body_param r "redirect_uri") = Some uri /\
     (ev_now_check ev <= expires)%Z /\ forall y, In y later -> ~ takes_code y sg).
Proof.
  intros l s ev r sg id H Hc Hf (He & Hg & Hn) Hrand. rewrite c59_code by done.
  pose proof (story (fun e => exists id uri ex, brings_code e sg id uri ex) (fun e y => takes_code y sg)
           (fun s => open_code s sg) (code_from sg) (fun _ => eq_refl)
           (fun s0 y s1 Hh => code_happens sg s0 y s1 Hh) l s H) as HL. cbv beta in HL.
  assert (HA : forall d, auth_code s (body_param r "code") d <-> sv_codes s !! sg = Some d).
  { intros d. split; [intros (sg' & Hn' & Hd); by rewrite (names_fun _ _ _ _ Hn Hn')|]. intros Hd. by exists sg. }
  assert (HO : forall d, (auth_code s (body_param r "code") d /\ cd_used d = false) <-> open_code s sg = Some d).
  { intros d. rewrite HA. unfold open_code. destruct (sv_codes s !! sg) as [d'|]; [|split; [by intros [? _]|done]].
    destruct (cd_used d') eqn:E; split; [intros [[= ->] ?]; congruence|done|by intros [? _]|intros [= ->]; done]. }
  destruct (open_code s sg) as [d|].
  - destruct HL as (e & later & Hl & Hbr & Hend). unfold code_from in Hbr. split.
    + intros ((d' & Hd & Hx1 & Hx2 & Hx3 & Hx4) & _). assert (Hd2 : Some d = Some d') by (apply HO; split; assumption). injection Hd2 as <-.
      exists e, later, (cd_redirect_uri d), (cd_expires_at d). split; [done|]. split; [by rewrite <- Hx3|]. done.
    + intros (e' & later' & uri & ex & Hl' & Hbr' & H1 & H2 & _). destruct (latest_fun _ _ _ _ _ _ Hl Hl') as [<- <-].
      destruct (brings_code_fun _ _ _ _ _ _ _ _ Hbr Hbr') as (Hid & Huri & <-). split; [|done].
      destruct (proj2 (HO d) eq_refl) as [Hd Hu]. exists d. split; [done|]. split; [done|]. split; [done|]. split; [done|]. congruence.
  - split; [intros ((d' & Hd & Hu & _) & _)|].
    { assert (Hx : None = Some d') by (apply HO; done). done. }
    intros (e' & later' & uri & ex & Hl' & Hbr' & H1 & H2 & H3).
    destruct (HL _ _ Hl') as (y & Hy & Hend). by apply H3 in Hy.
Qed.

(** ** Changes of the configuration *)
Lemma c73_settings : forall now s cfg r required w, cfg_secret cfg = server_secret s ->
  authorize now (set_config s cfg) r required w = authorize now s r required w.
Proof. intros now s cfg r required w E. unfold authorize, authorize_decision. cbn. by rewrite E. Qed.

Lemma c73_foreign_secret : forall now s r str required w,
  bearer r str -> (forall sg, ~ names (server_secret s) str sg) ->
  ~ exists w', authorize now s r required w = Some (true, w').
Proof.
  intros now s r str required w Hb Hn H. apply c27_granted in H as (str' & c & Hb' & (sg & Hsg & _) & _).
  rewrite (bearer_fun _ _ _ Hb' Hb) in Hsg. by apply Hn in Hsg.
Qed.

(** ** A case *)
Lemma history_owned cfg l s : history cfg l s -> owned (map Called l) s.
Proof. intros H. induction H; cbn; by constructor. Qed.

Lemma stored_accepted l s sg c cfg1 cfg2 now r str required w : owned l s ->
  bearer r str -> names (cfg_secret cfg2) str sg -> (now <= cd_expires_at c)%Z -> covers (cd_scope c) required ->
  exists w', authorize now (set_config (set_config (set_entry s TAccess sg (Some c)) cfg1) cfg2) r required w = Some (true, w').
Proof.
  intros H Hb Hn Hnow Hc.
  assert (Ho : owned (Configured cfg2 :: Configured cfg1 :: Stored TAccess sg (Some c) :: l)
                 (set_config (set_config (set_entry s TAccess sg (Some c)) cfg1) cfg2)) by by repeat constructor.
  apply (c73_access _ _ now r str sg required w Ho Hb Hn).
  exists (Stored TAccess sg (Some c)), [Configured cfg2; Configured cfg1], (cd_scope c), (cd_expires_at c).
  split; [|split; [done|]; split; [done|]; split; [done|]; intros y [<-|[<-|[]]] []].
  exists l. split; [done|]. split; [by eexists _, _|]. intros y [<-|[<-|[]]] (? & ? & []).
Qed.
