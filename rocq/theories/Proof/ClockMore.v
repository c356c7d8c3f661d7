(** Histories of the server with Go's time.Time. *)
From Verif.Model Require Import Clock.
From Verif.Spec Require Import TimeSpec RequestSpec ServerSpec ClockSpec.
From Verif.Proof Require Import ServerFacts ServerProofs GrantProofs TimeProofs ClockProofs.

#[local] Opaque time_add time_before time_unix now_at signature_string handle t_handle.

(** ** The answers to any calls *)
Definition near_answer (f : time -> Z) (good : time -> Prop) (a b : History.answer) : Prop :=
  a = b \/ exists c kind, good (tcd_expires_at c) /\ a = Answered (OIntro (t_describe c kind)) /\
                          b = Answered (OIntro (describe (view_cred f c) kind)).

Definition fits (f : time -> Z) (g : clock -> Z) (good : time -> Prop) (x : clock * Z) : Prop :=
  (forall t, good t -> time_before t (now_at (fst x)) = (f t <? g (fst x))%Z) /\
  makes f g good (fst x) (snd x).

Lemma sim_authorize f g good s c r required : all_good good s -> fits f g good (c, 0%Z) ->
  t_authorize_decision c s r required = authorize_decision (g c) (view f s) r required.
Proof.
  intros Hg [Hc _]. unfold t_authorize_decision, authorize_decision. cbn [view sv_config sv_access fst] in *.
  destruct (parse_bearer_token r) as [tk|e|]; [|done|done].
  destruct (parse_token _ tk) as [t|]; [|done]. rewrite lookup_fmap.
  destruct (tsv_access s !! signature_string t) as [a|] eqn:El; cbn [fmap option_fmap option_map]; [|done].
  cbn [view_cred cd_expires_at cd_scope]. rewrite (Hc _ (proj1 Hg _ _ El)). done.
Qed.

Lemma sim_op f g good cfg s o : all_good good s -> tsv_config s = cfg ->
  List.Forall (fits f g good) (readings cfg o) ->
  view f (fst (t_do_op s o)) = fst (do_op (view f s) (see g o)) /\
  all_good good (fst (t_do_op s o)) /\ tsv_config (fst (t_do_op s o)) = cfg /\
  near_answer f good (snd (t_do_op s o)) (snd (do_op (view f s) (see g o))).
Proof.
  intros Hg Hcfg Hf. destruct o as [ev r|c r required|id e|id|id e|id]; cbn [readings] in Hf.
  - apply List.Forall_cons_iff in Hf as [[H0 _] Hf]. apply List.Forall_cons_iff in Hf as [[_ H1] Hf].
    apply List.Forall_cons_iff in Hf as [[_ H2] Hf]. apply List.Forall_cons_iff in Hf as [[_ H3] _].
    cbn [fst snd] in *.
    pose proof (sim_handle f g good ev cfg H0 H1 H2 H3 s r Hg Hcfg) as H.
    cbn [t_do_op see do_op]. destruct (t_handle ev s r) as [s' o|s'], (handle (see_env g ev) (view f s) r) as [z o'|z];
      cbn [related fst snd] in H |- *; [|done|done|].
    + destruct H as (Hv & Hg' & Hc' & Hn). split; [done|]. split; [done|]. split; [done|].
      destruct Hn as [->|(c & kind & Hgc & -> & ->)]; [by left|]. right. by exists c, kind.
    + destruct H as (Hv & Hg' & Hc'). split; [done|]. split; [done|]. split; [done|]. by left.
  - apply List.Forall_cons_iff in Hf as [H0 _]. cbn [t_do_op see do_op fst snd].
    split; [done|]. split; [done|]. split; [done|]. left. f_equal. by apply (sim_authorize f g good).
  - cbn. split; [done|]. split; [done|]. split; [done|]. by left.
  - cbn. split; [done|]. split; [done|]. split; [done|]. by left.
  - cbn. split; [done|]. split; [done|]. split; [done|]. by left.
  - cbn. split; [done|]. split; [done|]. split; [done|]. by left.
Qed.

Lemma t_do_ops_cons s o l :
  t_do_ops s (o :: l) = (fst (t_do_ops (fst (t_do_op s o)) l), snd (t_do_op s o) :: snd (t_do_ops (fst (t_do_op s o)) l)).
Proof. cbn [t_do_ops]. destruct (t_do_op s o) as [s1 a]. cbn [fst snd]. by destruct (t_do_ops s1 l). Qed.

Lemma sim_ops f g good cfg l s : all_good good s -> tsv_config s = cfg ->
  List.Forall (fun o => List.Forall (fits f g good) (readings cfg o)) l ->
  List.Forall2 (near_answer f good) (snd (t_do_ops s l)) (answers (view f s) (map (see g) l)).
Proof.
  revert s. induction l as [|o l IH]; intros s Hg Hcfg Hf; [constructor|].
  apply List.Forall_cons_iff in Hf as [Ho Hf].
  destruct (sim_op f g good cfg s o Hg Hcfg Ho) as (Hv & Hg' & Hc' & Hn).
  rewrite t_do_ops_cons. cbn [snd map answers]. constructor; [done|].
  rewrite <- Hv. by apply IH.
Qed.

(** ** The stopwatch *)
Lemma fits_stopwatch x : ordinary x -> fits tm_ext ck_mono (fun t => tm_mono t = true) x.
Proof.
  destruct x as [c d]. unfold ordinary. cbn [fst snd]. intros (H1 & H2 & H3 & H4 & H5).
  assert (E : tm_mono (expiry (ck_wall c) (ck_mono c) d) = true) by by apply expiry_keeps.
  split.
  - intros t Ht. cbn [fst]. by apply before_stopwatch.
  - cbn [fst snd]. unfold makes. split; [exact E|]. exact (expiry_ext _ _ _ H3 H4 E).
Qed.

Lemma describe_exp f c kind : describe (view_cred f c) kind = with_exp (t_describe c kind) (f (tcd_expires_at c) / second).
Proof. done. Qed.

Lemma near_but_exp f good a b : near_answer f good a b -> same_but_exp a b.
Proof.
  intros [->|(c & kind & _ & -> & ->)]; [by left|]. right. eexists _, _. split; [done|].
  by rewrite describe_exp.
Qed.

Lemma new_good good cfg : all_good good (t_new_server cfg).
Proof. split; [|split]; cbn [t_new_server tsv_access tsv_refresh tsv_codes]; apply map_Forall_empty. Qed.

Lemma view_new f cfg : view f (t_new_server cfg) = new_server cfg.
Proof. unfold view, t_new_server, new_server. cbn [tsv_access tsv_refresh tsv_codes tsv_config tsv_clients tsv_users]. by rewrite !fmap_empty. Qed.

Lemma c74_stopwatch cfg l :
  List.Forall (fun o => List.Forall ordinary (readings cfg o)) l ->
  List.Forall2 same_but_exp (snd (t_do_ops (t_new_server cfg) l)) (answers (new_server cfg) (map (see ck_mono) l)).
Proof.
  intros H. rewrite <- (view_new tm_ext).
  eapply Forall2_impl; [|apply (near_but_exp tm_ext (fun t => tm_mono t = true))].
  apply (sim_ops _ _ _ cfg); [apply new_good|done|].
  eapply List.Forall_impl; [|exact H]. intros o Ho. cbv beta in *.
  eapply List.Forall_impl; [|exact Ho]. intros x. apply fits_stopwatch.
Qed.

Lemma with_exp_twice x e e' : with_exp (with_exp x e) e' = with_exp x e'.
Proof. done. Qed.
Lemma with_exp_self x : with_exp x (ir_expires_at x) = x.
Proof. by destruct x. Qed.

Lemma but_exp_join a b z : same_but_exp a z -> same_but_exp b z -> same_but_exp a b.
Proof.
  intros [->|(x & e & -> & ->)] [->|(y & e' & -> & Hz)].
  - by left.
  - right. exists (with_exp y e'), (ir_expires_at y). split; [done|].
    by rewrite with_exp_twice, with_exp_self.
  - right. by exists x, e.
  - right. apply (f_equal (fun a => match a with Answered (OIntro z) => z | _ => x end)) in Hz. exists x, (ir_expires_at y). split; [done|].
    assert (Hy : y = with_exp (with_exp x e) (ir_expires_at y)) by (rewrite Hz, with_exp_twice; by rewrite with_exp_self).
    rewrite with_exp_twice in Hy. by rewrite <- Hy.
Qed.

Lemma Forall2_join (l l' k : list History.answer) : List.Forall2 same_but_exp l k -> List.Forall2 same_but_exp l' k ->
  List.Forall2 same_but_exp l l'.
Proof.
  intros H. revert l'. induction H as [|a z l k Ha H IH]; intros l' H'; inversion H'; subst; constructor.
  - by eapply but_exp_join.
  - by apply IH.
Qed.

Lemma c74_settings cfg l l' :
  List.Forall (fun o => List.Forall ordinary (readings cfg o)) l ->
  List.Forall (fun o => List.Forall ordinary (readings cfg o)) l' ->
  List.Forall2 same_stopwatch l l' ->
  List.Forall2 same_but_exp (snd (t_do_ops (t_new_server cfg) l)) (snd (t_do_ops (t_new_server cfg) l')).
Proof.
  intros H H' Hs. eapply Forall2_join; [by apply c74_stopwatch|].
  assert (E : map (see ck_mono) l = map (see ck_mono) l').
  { clear H H'. induction Hs as [|o o' l l' Ho Hs IH]; [done|]. cbn [map]. f_equal; done. }
  rewrite E. by apply c74_stopwatch.
Qed.

(** ** The calendar, when nobody sets it *)
Definition dated (k : Z) (t : time) : Prop :=
  exists c d, in_step k (c, d) /\ t = time_add (now_at c) d.

Lemma fits_calendar k x : in_step k x -> fits stands ck_wall (dated k) x.
Proof.
  destruct x as [c d]. intros Hx. split.
  - intros t (c0 & d0 & (H1 & H2 & H3 & H4) & ->). destruct Hx as (G1 & G2 & G3 & G4). cbn [fst snd] in *.
    change (is_expired (expiry (ck_wall c0) (ck_mono c0) d0) (ck_wall c) (ck_mono c)
            = (stands (expiry (ck_wall c0) (ck_mono c0) d0) <? ck_wall c)%Z).
    rewrite expiry_stands by done. apply c74_one_number; try done. unfold undisturbed. lia.
  - cbn [fst snd]. split; [by exists c, d|]. destruct Hx as (H1 & H2 & H3 & H4). cbn [fst snd] in *.
    exact (expiry_stands _ (ck_mono c) _ H2 H4).
Qed.

Lemma dated_unix k t : dated k t -> time_unix t = (stands t / second)%Z.
Proof.
  intros (c & d & (H1 & H2 & H3 & H4) & ->). cbn [fst snd] in *.
  pose proof (c74_reported (ck_wall c) (ck_mono c) d H2 H4) as Hr.
  pose proof (expiry_stands (ck_wall c) (ck_mono c) d H2 H4) as Hs.
  change (time_unix (time_add (now_at c) d)) with (reported (expiry (ck_wall c) (ck_mono c) d)).
  change (stands (time_add (now_at c) d)) with (stands (expiry (ck_wall c) (ck_mono c) d)).
  rewrite Hr, Hs. reflexivity.
Qed.

Lemma c74_undisturbed cfg k l :
  List.Forall (fun o => List.Forall (in_step k) (readings cfg o)) l ->
  snd (t_do_ops (t_new_server cfg) l) = answers (new_server cfg) (map (see ck_wall) l).
Proof.
  intros H.
  assert (H2 : List.Forall2 (near_answer stands (dated k)) (snd (t_do_ops (t_new_server cfg) l))
                 (answers (new_server cfg) (map (see ck_wall) l))).
  { rewrite <- (view_new stands). apply (sim_ops _ _ _ cfg); [apply new_good|done|].
    eapply List.Forall_impl; [|exact H]. intros o Ho. cbv beta in *.
    eapply List.Forall_impl; [|exact Ho]. intros x. apply fits_calendar. }
  clear H. induction H2 as [|a b l1 l2 Hab H2 IH]; [done|]. f_equal; [|done].
  destruct Hab as [->|(c & kind & Hd & -> & ->)]; [done|].
  unfold t_describe, describe. cbn [view_cred cd_scope cd_client_id cd_username cd_expires_at].
  by rewrite (dated_unix k _ Hd).
Qed.

(** ** What introspection reports *)
#[local] Transparent t_handle.
Definition news (cfg : server_config) (ev : t_env) (s : t_server) (o : outcome) (s' : t_server) : Prop :=
  tsv_config s' = tsv_config s /\
  (forall sg c, tsv_access s' !! sg = Some c -> tsv_access s !! sg = Some c \/
     exists t, o = OToken t /\ names (cfg_secret cfg) (tr_access_token t) sg /\
       tcd_expires_at c = time_add (now_at (tev_now_access ev)) (cfg_access_lifespan cfg)) /\
  (forall sg c, tsv_refresh s' !! sg = Some c -> tsv_refresh s !! sg = Some c \/
     exists t, o = OToken t /\ names (cfg_secret cfg) (tr_refresh_token t) sg /\
       tcd_expires_at c = time_add (now_at (tev_now_refresh ev)) (cfg_refresh_lifespan cfg)).

Definition told (cfg : server_config) (ev : t_env) (s : t_server) (x : t_result) : Prop :=
  match x with
  | TDone s' o => news cfg ev s o s'
  | TPanic s' => s' = s
  end.

Lemma news_same cfg ev s o : news cfg ev s o s.
Proof. split; [done|]. split; intros; by left. Qed.

(** Fewer entries is no news. *)
Lemma news_fewer cfg ev s o s1 s2 : news cfg ev s o s1 -> tsv_config s2 = tsv_config s1 ->
  tsv_access s2 ⊆ tsv_access s1 -> tsv_refresh s2 ⊆ tsv_refresh s1 -> news cfg ev s o s2.
Proof.
  intros (H1 & H2 & H3) Hc Ha Hr. split; [congruence|]. split; intros sg c Hl.
  - apply H2. by eapply lookup_weaken.
  - apply H3. by eapply lookup_weaken.
Qed.

(** The token response may get a redirect URI on top. *)
Lemma news_other cfg ev s t u s' : tr_access_token u = tr_access_token t -> tr_refresh_token u = tr_refresh_token t ->
  news cfg ev s (OToken t) s' -> news cfg ev s (OToken u) s'.
Proof.
  intros E1 E2 (H1 & H2 & H3). split; [done|]. split; intros sg c Hl.
  - destruct (H2 sg c Hl) as [?|(t0 & Ht & Hn & He)]; [by left|]. right. injection Ht as ->. exists u. by rewrite E1.
  - destruct (H3 sg c Hl) as [?|(t0 & Ht & Hn & He)]; [by left|]. right. injection Ht as ->. exists u. by rewrite E2.
Qed.

Lemma news_issue cfg ev s b sc id user code s' t : tsv_config s = cfg ->
  t_issue_tokens ev s b sc id user code = Some (s', t) -> news cfg ev s (OToken t) s'.
Proof.
  intros Hcfg. unfold t_issue_tokens. rewrite Hcfg. intros H.
  destruct (cfg_must_generate cfg (tev_rand ev)) as [[t1 src1]|] eqn:E1; [|done].
  assert (Hacc : forall (m : gmap string t_credential) sg c cc, <[signature_string t1 := cc]> m !! sg = Some c ->
    tcd_expires_at cc = time_add (now_at (tev_now_access ev)) (cfg_access_lifespan cfg) ->
    m !! sg = Some c \/ names (cfg_secret cfg) (token_string t1) sg /\
       tcd_expires_at c = time_add (now_at (tev_now_access ev)) (cfg_access_lifespan cfg)).
  { intros m sg c cc Hl Hcc. apply lookup_insert_Some in Hl as [[<- <-]|[_ Hl]]; [|by left].
    right. split; [by eapply generated_names|done]. }
  destruct b.
  - destruct (cfg_must_generate cfg src1) as [[t2 src2]|] eqn:E2; [|done].
    apply (f_equal (fun o => match o with Some x => x | None => (s, t) end)) in H.
    pose proof (f_equal fst H) as Hs. pose proof (f_equal snd H) as Ht. cbn [fst snd] in Hs, Ht.
    split; [by rewrite <- Hs|]. rewrite <- Hs, <- Ht. unfold t_set_refresh, t_set_access.
    cbn [tsv_access tsv_refresh]. split; intros sg c Hl.
    + edestruct Hacc as [?|[Hn He]]; [exact Hl|done|by left|]. right. eexists. split; [done|]. done.
    + apply lookup_insert_Some in Hl as [[<- <-]|[_ Hl]]; [|by left].
      right. eexists. split; [done|]. split; [by eapply generated_names|done].
  - apply (f_equal (fun o => match o with Some x => x | None => (s, t) end)) in H.
    pose proof (f_equal fst H) as Hs. pose proof (f_equal snd H) as Ht. cbn [fst snd] in Hs, Ht.
    split; [by rewrite <- Hs|]. rewrite <- Hs, <- Ht. unfold t_set_access.
    cbn [tsv_access tsv_refresh]. split; intros sg c Hl; [|by left].
    edestruct Hacc as [?|[Hn He]]; [exact Hl|done|by left|]. right. eexists. split; [done|]. done.
Qed.

Ltac no_news := first [exact (news_same _ _ _ _) | reflexivity].
Ltac split_if := match goal with |- context [if ?b then _ else _] => destruct b; [no_news|] end.
Ltac grant Hcfg :=
  match goal with
  | |- context [t_issue_tokens ?ev ?s ?b ?sc ?id ?user ?code] =>
      let E := fresh "E" in
      destruct (t_issue_tokens ev s b sc id user code) as [[s' tr]|] eqn:E; [|no_news];
      apply (news_issue _ _ _ _ _ _ _ _ _ _ Hcfg) in E; cbn [told]
  end.

Lemma t_revoke_order_sub code order m : t_revoke_code_order code order m ⊆ m.
Proof.
  unfold t_revoke_code_order. revert m. induction order as [|k order IH]; intros m; [done|].
  cbn [fold_left]. etrans; [apply IH|]. destruct (m !! k); [|done]. destruct (seqb _ _); [|done].
  apply delete_subseteq.
Qed.
Lemma t_revoke_token_sub id m k : t_revoke_token id m k ⊆ m.
Proof.
  unfold t_revoke_token. destruct (m !! k); [|done]. destruct (negb _); [done|]. apply delete_subseteq.
Qed.

Lemma told_handle cfg ev s r : tsv_config s = cfg -> told cfg ev s (t_handle ev s r).
Proof.
  intros Hcfg. unfold t_handle.
  destruct (seqb _ _).
  { unfold t_authorization_endpoint. destruct (parse_authorization_request r) as [rq|e]; [|no_news].
    split_if. destruct (tsv_clients s !! _) as [cl|]; [|no_news]. split_if. split_if.
    destruct (seqb _ _).
    - unfold t_handle_implicit. split_if. split_if. grant Hcfg. by eapply news_other; [..|exact E].
    - unfold t_handle_code_authorization. split_if. split_if.
      destruct (cfg_must_generate _ _) as [[t1 src1]|]; [|no_news].
      cbn [told]. by eapply news_fewer; [apply news_same|..]. }
  destruct (seqb _ _).
  { unfold t_token_endpoint. destruct (parse_token_request r) as [rq|e]; [|no_news].
    split_if. destruct (tsv_clients s !! _) as [cl|] eqn:Ecl; [|no_news]. split_if.
    destruct (seqb _ _); [|destruct (seqb _ _); [|destruct (seqb _ _)]].
    - unfold t_handle_password. split_if. split_if. grant Hcfg. done.
    - unfold t_handle_client_credentials. rewrite Ecl. split_if. split_if. grant Hcfg. done.
    - unfold t_handle_code. destruct (parse_token _ _) as [tk|msg]; [|no_news].
      destruct (tsv_codes s !! _) as [stored|]; [|no_news].
      destruct (tcd_used stored).
      { cbn [told]. eapply news_fewer; [apply news_same|done| |]; apply t_revoke_order_sub. }
      split_if. split_if. split_if. grant Hcfg. by eapply news_fewer; [exact E|..].
    - unfold t_handle_refresh. destruct (parse_token _ _) as [tk|msg]; [|no_news].
      destruct (tsv_refresh s !! _) as [stored|]; [|no_news].
      split_if. split_if.
      match goal with |- context [if negb (scope_includes ?a ?b) then _ else _] => destruct (negb (scope_includes a b)); [no_news|] end.
      grant Hcfg. eapply news_fewer; [exact E|done|done|]. apply delete_subseteq. }
  destruct (seqb _ _).
  { unfold t_introspection_endpoint. destruct (t_lookup_prologue s r) as [[rq tk]|e]; [|no_news].
    destruct (tsv_access s !! _) as [a|].
    - destruct (negb (seqb (tcd_client_id a) _)); [no_news|]. destruct (tsv_refresh s !! _) as [f|]; [|no_news]. split_if. no_news.
    - destruct (tsv_refresh s !! _) as [f|]; [|no_news]. split_if. no_news. }
  destruct (seqb _ _); [|no_news].
  unfold t_revocation_endpoint. destruct (t_lookup_prologue s r) as [[rq tk]|e]; [|no_news].
  assert (Hfin : forall s1, news cfg ev s ORevoked s1 -> (forall o, news cfg ev s o s1) ->
    told cfg ev s
     (match tsv_refresh s1 !! signature_string tk with
      | None => TDone s1 ORevoked
      | Some f => if negb (seqb (tcd_client_id f) (lq_client_id rq))
                  then TDone s1 (OError (InvalidClient "wrong client"))
                  else TDone (t_set_refresh s1 (t_revoke_token (lq_client_id rq) (tsv_refresh s1) (signature_string tk))) ORevoked
      end)).
  { intros s1 H1 H2. destruct (tsv_refresh s1 !! _) as [f|]; [|exact H1].
    destruct (negb _); [exact (H2 _)|]. cbn [told].
    eapply news_fewer; [exact H1|done|done|]. apply t_revoke_token_sub. }
  destruct (tsv_access s !! _) as [a|].
  - destruct (negb (seqb (tcd_client_id a) _)); [no_news|]. apply Hfin.
    + eapply news_fewer; [apply news_same|done| |done]. apply t_revoke_token_sub.
    + intros o. eapply news_fewer; [apply news_same|done| |done]. apply t_revoke_token_sub.
  - apply Hfin; [apply news_same|]. intros o. apply news_same.
Qed.
#[local] Opaque t_handle.

Definition sourced (cfg : server_config) (l : list (t_op * History.answer)) (s : t_server) : Prop :=
  tsv_config s = cfg /\
  (forall sg c, tsv_access s !! sg = Some c -> exists k, made_access (cfg_secret cfg) l sg k /\
     tcd_expires_at c = time_add (now_at k) (cfg_access_lifespan cfg)) /\
  (forall sg c, tsv_refresh s !! sg = Some c -> exists k, made_refresh (cfg_secret cfg) l sg k /\
     tcd_expires_at c = time_add (now_at k) (cfg_refresh_lifespan cfg)).

Lemma sourced_more cfg l l' s : (forall x, In x l -> In x l') -> sourced cfg l s -> sourced cfg l' s.
Proof.
  intros Hi (H1 & H2 & H3). split; [done|]. split; intros sg c Hl.
  - destruct (H2 sg c Hl) as (k & (ev & r & t & Hin & Hn & Hk) & He). exists k. split; [|done]. exists ev, r, t. auto.
  - destruct (H3 sg c Hl) as (k & (ev & r & t & Hin & Hn & Hk) & He). exists k. split; [|done]. exists ev, r, t. auto.
Qed.

Lemma sourced_op cfg l s o : sourced cfg l s -> sourced cfg (l ++ [(o, snd (t_do_op s o))]) (fst (t_do_op s o)).
Proof.
  intros H. assert (Hm : sourced cfg (l ++ [(o, snd (t_do_op s o))]) s).
  { eapply sourced_more; [|exact H]. intros x Hx. apply in_or_app. by left. }
  destruct o as [ev r|c r required|id e|id|id e|id]; cbn [t_do_op fst snd] in *; try exact Hm.
  pose proof (told_handle cfg ev s r (proj1 H)) as Ht.
  destruct (t_handle ev s r) as [s' out|s']; cbn [told fst snd] in *; [|by subst s'].
  destruct Ht as (T1 & T2 & T3), Hm as (H1 & H2 & H3). split; [congruence|]. split; intros sg c Hl.
  - destruct (T2 sg c Hl) as [Ho|(t & -> & Hn & He)]; [by apply H2|].
    exists (tev_now_access ev). split; [|done]. exists ev, r, t. split; [|done]. apply in_or_app. right. by left.
  - destruct (T3 sg c Hl) as [Ho|(t & -> & Hn & He)]; [by apply H3|].
    exists (tev_now_refresh ev). split; [|done]. exists ev, r, t. split; [|done]. apply in_or_app. right. by left.
Qed.

Lemma sourced_ops cfg l pre s : sourced cfg pre s ->
  sourced cfg (pre ++ combine l (snd (t_do_ops s l))) (fst (t_do_ops s l)).
Proof.
  revert pre s. induction l as [|o l IH]; intros pre s H; [by rewrite app_nil_r|].
  rewrite t_do_ops_cons. cbn [fst snd combine].
  pose proof (IH _ _ (sourced_op cfg pre s o H)) as H2. rewrite <- app_assoc in H2. exact H2.
Qed.

Lemma t_intro_from ev s r s' x : t_handle ev s r = TDone s' (OIntro x) -> ir_active x = true ->
  exists sg, names (cfg_secret (tsv_config s)) (body_param r "token") sg /\
    ((exists c, tsv_access s !! sg = Some c /\ x = t_describe c AccessToken) \/
     (exists c, tsv_refresh s !! sg = Some c /\ x = t_describe c RefreshToken)).
Proof.
  intros H Hx.
  assert (Hi : t_introspection_endpoint s r = TDone s' (OIntro x)).
  { #[local] Transparent t_handle. unfold t_handle in H. #[local] Opaque t_handle.
    destruct (seqb _ "authorize").
    { exfalso. revert H. unfold t_authorization_endpoint, t_handle_implicit, t_handle_code_authorization.
      destruct (parse_authorization_request r); [|done]. destruct (negb _); [done|].
      destruct (_ !! _); [|done]. destruct (negb _); [done|]. destruct (seqb _ _); [done|].
      destruct (seqb _ _); (destruct (negb _); [done|]); (destruct (negb _); [done|]).
      - destruct (t_issue_tokens _ _ _ _ _ _ _) as [[]|]; done.
      - destruct (cfg_must_generate _ _) as [[]|]; done. }
    destruct (seqb _ "token").
    { exfalso. revert H. unfold t_token_endpoint, t_handle_password, t_handle_client_credentials, t_handle_code, t_handle_refresh.
      destruct (parse_token_request r); [|done]. destruct (negb _); [done|].
      destruct (_ !! _); [|done]. destruct (negb _); [done|].
      repeat match goal with
      | |- context [t_issue_tokens ?a ?b ?c ?d ?e ?f ?g] => destruct (t_issue_tokens a b c d e f g) as [[? ?]|]
      | |- context [match parse_token ?a ?b with _ => _ end] => destruct (parse_token a b)
      | |- context [match ?m !! ?k with _ => _ end] => destruct (m !! k)
      | |- context [if negb ?b then _ else _] => destruct (negb b)
      | |- context [if seqb ?a ?b then _ else _] => destruct (seqb a b)
      | |- context [if tcd_used ?b then _ else _] => destruct (tcd_used b)
      | |- context [if time_before ?a ?b then _ else _] => destruct (time_before a b)
      end; discriminate. }
    destruct (seqb _ "introspect"); [exact H|]. exfalso. revert H.
    destruct (seqb _ "revoke"); [|done]. unfold t_revocation_endpoint.
    destruct (t_lookup_prologue s r) as [[]|]; [|done].
    destruct (tsv_access s !! _); [destruct (negb _); [done|]|];
      (destruct (tsv_refresh _ !! _); [destruct (negb _); done|done]). }
  clear H. revert Hi. unfold t_introspection_endpoint.
  assert (Hp : lookup_prologue (view tm_ext s) r = t_lookup_prologue s r) by apply sim_prologue.
  destruct (t_lookup_prologue s r) as [[rq tk]|e]; [|done].
  apply prologue_inl in Hp as (Hp & _ & Hk & _). apply parse_lookup_inl in Hp as (_ & _ & _ & Ht & _).
  assert (Hn : names (cfg_secret (tsv_config s)) (body_param r "token") (signature_string tk)).
  { rewrite <- Ht. by apply names_parsed. }
  intros Hi. exists (signature_string tk). split; [exact Hn|]. clear Hn Hk Ht.
  destruct (tsv_access s !! signature_string tk) as [a|].
  - destruct (negb (seqb (tcd_client_id a) _)); [done|].
    destruct (tsv_refresh s !! signature_string tk) as [f|].
    + destruct (negb _); [done|]. right. exists f. split; [done|]. by injection Hi as _ <-.
    + left. exists a. split; [done|]. by injection Hi as _ <-.
  - destruct (tsv_refresh s !! signature_string tk) as [f|].
    + destruct (negb _); [done|]. right. exists f. split; [done|]. by injection Hi as _ <-.
    + injection Hi as _ <-. discriminate Hx.
Qed.

Lemma c74_introspection cfg l ev r x :
  let s := fst (t_do_ops (t_new_server cfg) l) in
  let past := combine l (snd (t_do_ops (t_new_server cfg) l)) in
  List.Forall (fun o => List.Forall (fun c => calendar (ck_wall (fst c)) /\ int64 (snd c)) (readings cfg o)) l ->
  snd (t_do_op s (TServe ev r)) = Answered (OIntro x) -> ir_active x = true ->
  exists sg c, names (cfg_secret cfg) (body_param r "token") sg /\
    ((made_access (cfg_secret cfg) past sg c /\
      ir_expires_at x = (ck_wall c + cfg_access_lifespan cfg) / 1000000000)%Z \/
     (made_refresh (cfg_secret cfg) past sg c /\
      ir_expires_at x = (ck_wall c + cfg_refresh_lifespan cfg) / 1000000000)%Z).
Proof.
  intros s past Hl Ha Hx.
  assert (Hsrc : sourced cfg past s).
  { apply (sourced_ops cfg l [] (t_new_server cfg)). split; [done|].
    split; intros sg c Hc; cbn [t_new_server tsv_access tsv_refresh] in Hc; by rewrite lookup_empty in Hc. }
  cbn [t_do_op snd] in Ha. destruct (t_handle ev s r) as [s' o|s'] eqn:Eh; [|done].
  cbn [snd] in Ha. injection Ha as ->.
  apply t_intro_from in Eh as (sg & Hn & Hc); [|done]. destruct Hsrc as (Hcfg & H2 & H3).
  rewrite Hcfg in Hn.
  assert (Hr : forall ev0 r0 t0, In (TServe ev0 r0, Answered (OToken t0)) past ->
    List.Forall (fun c => calendar (ck_wall (fst c)) /\ int64 (snd c)) (readings cfg (TServe ev0 r0))).
  { intros ev0 r0 t0 Hin. apply in_combine_l in Hin. rewrite List.Forall_forall in Hl. by apply Hl. }
  destruct Hc as [(c & Hc & ->)|(c & Hc & ->)].
  - destruct (H2 sg c Hc) as (k & Hm & He). exists sg, k. split; [done|]. left. split; [done|].
    cbn [t_describe ir_expires_at]. rewrite He.
    destruct Hm as (ev0 & r0 & t0 & Hin & _ & ->). specialize (Hr _ _ _ Hin).
    cbn [readings] in Hr. apply List.Forall_cons_iff in Hr as [_ Hr]. apply List.Forall_cons_iff in Hr as [[Hr1 Hr2] _].
    exact (c74_reported _ (ck_mono (tev_now_access ev0)) _ Hr1 Hr2).
  - destruct (H3 sg c Hc) as (k & Hm & He). exists sg, k. split; [done|]. right. split; [done|].
    cbn [t_describe ir_expires_at]. rewrite He.
    destruct Hm as (ev0 & r0 & t0 & Hin & _ & ->). specialize (Hr _ _ _ Hin).
    cbn [readings] in Hr. apply List.Forall_cons_iff in Hr as [_ Hr]. apply List.Forall_cons_iff in Hr as [_ Hr]. apply List.Forall_cons_iff in Hr as [[Hr1 Hr2] _].
    exact (c74_reported _ (ck_mono (tev_now_refresh ev0)) _ Hr1 Hr2).
Qed.
