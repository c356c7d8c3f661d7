(** The server with Go's time.Time against the server with one number for an
    instant. *)
From Verif.Model Require Import Clock.
From Verif.Spec Require Import TimeSpec ServerSpec ClockSpec.
From Verif.Proof Require Import ServerFacts GrantProofs TimeProofs.

#[local] Opaque time_add time_before time_unix now_at signature_string.

(** ** The server seen through a function from times to numbers *)
Definition view_cred (f : time -> Z) (c : t_credential) : credential :=
  {| cd_client_id := tcd_client_id c; cd_username := tcd_username c;
     cd_expires_at := f (tcd_expires_at c); cd_scope := tcd_scope c;
     cd_redirect_uri := tcd_redirect_uri c; cd_code := tcd_code c; cd_used := tcd_used c |}.
Definition view (f : time -> Z) (s : t_server) : server :=
  {| sv_config := tsv_config s; sv_clients := tsv_clients s; sv_users := tsv_users s;
     sv_access := view_cred f <$> tsv_access s;
     sv_refresh := view_cred f <$> tsv_refresh s;
     sv_codes := view_cred f <$> tsv_codes s |}.

(** All stored times satisfy [good]. *)
Definition all_good (good : time -> Prop) (s : t_server) : Prop :=
  map_Forall (fun _ c => good (tcd_expires_at c)) (tsv_access s) /\
  map_Forall (fun _ c => good (tcd_expires_at c)) (tsv_refresh s) /\
  map_Forall (fun _ c => good (tcd_expires_at c)) (tsv_codes s).

Lemma view_revoke_order f code order m :
  view_cred f <$> t_revoke_code_order code order m = revoke_code_order code order (view_cred f <$> m).
Proof.
  unfold t_revoke_code_order, revoke_code_order. revert m.
  induction order as [|k order IH]; intros m; [done|].
  cbn [fold_left]. rewrite IH. f_equal. rewrite lookup_fmap.
  destruct (m !! k) as [c|]; cbn [fmap option_fmap option_map]; [|done].
  cbn [view_cred cd_code]. destruct (seqb _ _); [|done]. by rewrite fmap_delete.
Qed.

Lemma view_revoke_code f code m :
  view_cred f <$> t_revoke_code code m = revoke_code code (view_cred f <$> m).
Proof.
  unfold t_revoke_code, revoke_code. rewrite view_revoke_order. apply map_eq. intros k.
  rewrite !revoke_order_lookup, !lookup_fmap.
  destruct (m !! k) as [c|] eqn:Em; cbn [fmap option_fmap option_map]; [|done].
  assert (H1 : In k (map fst (map_to_list m))) by (apply in_keys; eauto).
  assert (H2 : In k (map fst (map_to_list (view_cred f <$> m)))).
  { apply in_keys. rewrite lookup_fmap, Em. eauto. }
  destruct (in_dec string_dec k (map fst (map_to_list m))) as [_|?]; [|done].
  by destruct (in_dec string_dec k (map fst (map_to_list (view_cred f <$> m)))) as [_|?].
Qed.

Lemma revoke_order_good P code order (m : gmap string t_credential) :
  map_Forall (fun _ c => P (tcd_expires_at c)) m ->
  map_Forall (fun _ c => P (tcd_expires_at c)) (t_revoke_code_order code order m).
Proof.
  unfold t_revoke_code_order. revert m. induction order as [|k order IH]; intros m Hm; [done|].
  cbn [fold_left]. apply IH. destruct (m !! k); [|done]. destruct (seqb _ _); [|done].
  by apply map_Forall_delete.
Qed.

Lemma revoke_token_good (good : time -> Prop) id (m : gmap string t_credential) k :
  map_Forall (fun _ c => good (tcd_expires_at c)) m ->
  map_Forall (fun _ c => good (tcd_expires_at c)) (t_revoke_token id m k).
Proof.
  unfold t_revoke_token. intros H. destruct (m !! k); [|done]. destruct (negb _); [done|].
  by apply map_Forall_delete.
Qed.

(** The stored times are good after a change of one map. *)
Ltac stored :=
  lazymatch goal with
  | |- map_Forall _ (<[_:=_]> _) => apply map_Forall_insert_2; [cbn [tcd_expires_at t_mark_used]; assumption|stored]
  | |- map_Forall _ (delete _ _) => apply map_Forall_delete; stored
  | |- map_Forall _ (t_revoke_code _ _) => apply revoke_order_good; stored
  | |- map_Forall _ (t_revoke_token _ _ _) => apply revoke_token_good; stored
  | H : map_Forall _ (tsv_access ?s) |- map_Forall _ (tsv_access ?s) => exact H
  | H : map_Forall _ (tsv_refresh ?s) |- map_Forall _ (tsv_refresh ?s) => exact H
  | H : map_Forall _ (tsv_codes ?s) |- map_Forall _ (tsv_codes ?s) => exact H
  end.

Section sim.
  Context (f : time -> Z) (g : clock -> Z) (good : time -> Prop) (ev : t_env) (cfg : server_config).
  Context (Hcheck : forall t, good t -> time_before t (now_at (tev_now_check ev)) = (f t <? g (tev_now_check ev))%Z).
  Definition makes (c : clock) (d : Z) : Prop :=
    good (time_add (now_at c) d) /\ f (time_add (now_at c) d) = (g c + d)%Z.
  Context (Haccess : makes (tev_now_access ev) (cfg_access_lifespan cfg)).
  Context (Hrefresh : makes (tev_now_refresh ev) (cfg_refresh_lifespan cfg)).
  Context (Hcode : makes (tev_now_code ev) (cfg_code_lifespan cfg)).

  (** The outcome may report another time of expiry. *)
  Definition near (o o' : outcome) : Prop :=
    o = o' \/ exists c kind, good (tcd_expires_at c) /\ o = OIntro (t_describe c kind) /\ o' = OIntro (describe (view_cred f c) kind).
  Definition related (x : t_result) (y : result) : Prop :=
    match x, y with
    | TDone s o, Done s' o' => view f s = s' /\ all_good good s /\ tsv_config s = cfg /\ near o o'
    | TPanic s, Panic s' => view f s = s' /\ all_good good s /\ tsv_config s = cfg
    | _, _ => False
    end.

  Lemma related_same s o : all_good good s -> tsv_config s = cfg -> related (TDone s o) (Done (view f s) o).
  Proof. intros Hg Hc. split; [reflexivity|]. split; [exact Hg|]. split; [exact Hc|]. left. reflexivity. Qed.
  Lemma related_panic s : all_good good s -> tsv_config s = cfg -> related (TPanic s) (Panic (view f s)).
  Proof. intros Hg Hc. split; [reflexivity|]. split; [exact Hg|exact Hc]. Qed.

  Lemma sim_issue s b sc id user code : all_good good s -> tsv_config s = cfg ->
    match t_issue_tokens ev s b sc id user code with
    | Some (s', r) => issue_tokens (see_env g ev) (view f s) b sc id user code = Some (view f s', r)
                      /\ all_good good s' /\ tsv_config s' = cfg
    | None => issue_tokens (see_env g ev) (view f s) b sc id user code = None
    end.
  Proof.
    intros (Ha & Hr & Hc) Hcfg. unfold t_issue_tokens, issue_tokens.
    cbn [view sv_config see_env ev_rand]. rewrite Hcfg.
    destruct (cfg_must_generate cfg (tev_rand ev)) as [[t1 src1]|]; [|done].
    destruct Haccess as [Ga Fa], Hrefresh as [Gr Fr].
    destruct b.
    - destruct (cfg_must_generate cfg src1) as [[t2 src2]|]; [|done].
      split; [|split].
      + unfold view, t_set_refresh, t_set_access, set_refresh, set_access.
        cbn [sv_config sv_clients sv_users sv_access sv_refresh sv_codes
             tsv_config tsv_clients tsv_users tsv_access tsv_refresh tsv_codes ev_now_access ev_now_refresh].
        rewrite !fmap_insert.
        unfold view_cred.
        cbn [tcd_client_id tcd_username tcd_expires_at tcd_scope tcd_redirect_uri tcd_code tcd_used].
        rewrite Fa, Fr. by rewrite Hcfg.
      + unfold t_set_refresh, t_set_access. split; [|split]; cbn [tsv_access tsv_refresh tsv_codes];
          stored.
      + done.
    - split; [|split].
      + unfold view, t_set_access, set_access.
        cbn [sv_config sv_clients sv_users sv_access sv_refresh sv_codes
             tsv_config tsv_clients tsv_users tsv_access tsv_refresh tsv_codes ev_now_access ev_now_refresh].
        rewrite !fmap_insert.
        unfold view_cred.
        cbn [tcd_client_id tcd_username tcd_expires_at tcd_scope tcd_redirect_uri tcd_code tcd_used].
        rewrite Fa. by rewrite Hcfg.
      + unfold t_set_access. split; [|split]; cbn [tsv_access tsv_refresh tsv_codes];
          stored.
      + done.
  Qed.

  (** Issue tokens on both sides. *)
  Ltac issue Hg Hcfg :=
    match goal with
    | |- context [t_issue_tokens ev ?s ?b ?sc ?id ?user ?code] =>
        pose proof (sim_issue s b sc id user code Hg Hcfg) as HI;
        destruct (t_issue_tokens ev s b sc id user code) as [[s' tr]|];
        [destruct HI as (-> & HI2 & HI3)|rewrite HI]
    end.
  Ltac same := first [apply related_same | apply related_panic]; assumption.

  Lemma sim_owner s u p : owner_ok (view f s) u p = t_owner_ok s u p.
  Proof. done. Qed.

  Lemma sim_implicit s u p rq : all_good good s -> tsv_config s = cfg ->
    related (t_handle_implicit ev s u p rq) (handle_implicit (see_env g ev) (view f s) u p rq).
  Proof.
    intros Hg Hcfg. unfold t_handle_implicit, handle_implicit. rewrite sim_owner. cbn [view sv_config].
    destruct (negb _); [same|]. destruct (negb _); [same|]. fold (view f s).
    issue Hg Hcfg; same.
  Qed.

  Lemma sim_code_authorization s u p rq : all_good good s -> tsv_config s = cfg ->
    related (t_handle_code_authorization ev s u p rq) (handle_code_authorization (see_env g ev) (view f s) u p rq).
  Proof.
    intros Hg Hcfg. unfold t_handle_code_authorization, handle_code_authorization. rewrite sim_owner.
    cbn [view sv_config sv_codes see_env ev_rand ev_now_code]. rewrite Hcfg.
    destruct (negb _); [same|]. destruct (negb _); [same|].
    destruct (cfg_must_generate cfg (tev_rand ev)) as [[t1 src1]|]; [|same].
    destruct Hcode as [Gc Fc]. cbn [related]. split; [|split; [|split]].
    - unfold view, t_set_codes, set_codes.
      cbn [sv_config sv_clients sv_users sv_access sv_refresh sv_codes
           tsv_config tsv_clients tsv_users tsv_access tsv_refresh tsv_codes].
      rewrite fmap_insert.
      unfold view_cred.
        cbn [tcd_client_id tcd_username tcd_expires_at tcd_scope tcd_redirect_uri tcd_code tcd_used].
      by rewrite Fc, Hcfg.
    - destruct Hg as (Ha & Hr & Hc). unfold t_set_codes. split; [|split]; cbn [tsv_access tsv_refresh tsv_codes];
        stored.
    - done.
    - by left.
  Qed.

  Lemma sim_authorization s r : all_good good s -> tsv_config s = cfg ->
    related (t_authorization_endpoint ev s r) (authorization_endpoint (see_env g ev) (view f s) r).
  Proof.
    intros Hg Hcfg. unfold t_authorization_endpoint, authorization_endpoint.
    destruct (parse_authorization_request r) as [rq|e]; [|same].
    destruct (negb _); [same|]. cbn [view sv_clients].
    destruct (tsv_clients s !! aq_client_id rq) as [cl|]; [|same].
    destruct (negb _); [same|]. destruct (seqb _ _); [same|].
    destruct (seqb _ _); [by apply sim_implicit|by apply sim_code_authorization].
  Qed.

  Lemma sim_password s rq : all_good good s -> tsv_config s = cfg ->
    related (t_handle_password ev s rq) (handle_password (see_env g ev) (view f s) rq).
  Proof.
    intros Hg Hcfg. unfold t_handle_password, handle_password. rewrite sim_owner. cbn [view sv_config].
    destruct (negb _); [same|]. destruct (negb _); [same|]. fold (view f s).
    issue Hg Hcfg; same.
  Qed.

  Lemma sim_client s rq : all_good good s -> tsv_config s = cfg ->
    related (t_handle_client_credentials ev s rq) (handle_client_credentials (see_env g ev) (view f s) rq).
  Proof.
    intros Hg Hcfg. unfold t_handle_client_credentials, handle_client_credentials. cbn [view sv_config sv_clients].
    destruct (tsv_clients s !! _) as [cl|]; [|same].
    destruct (negb _); [same|]. destruct (negb _); [same|]. fold (view f s).
    issue Hg Hcfg; same.
  Qed.

  Lemma sim_handle_code s rq : all_good good s -> tsv_config s = cfg ->
    related (t_handle_code ev s rq) (handle_code (see_env g ev) (view f s) rq).
  Proof.
    intros Hg Hcfg. unfold t_handle_code, handle_code. cbn [view sv_config sv_codes].
    destruct (parse_token _ _) as [tk|msg]; [|same].
    rewrite lookup_fmap. destruct (tsv_codes s !! signature_string tk) as [stored|] eqn:El;
      cbn [fmap option_fmap option_map]; [|same].
    assert (Hs : good (tcd_expires_at stored)) by exact (proj2 (proj2 Hg) _ _ El).
    cbn [view_cred cd_used cd_expires_at cd_client_id cd_redirect_uri cd_scope cd_username see_env ev_now_check].
    destruct (tcd_used stored).
    { cbn [related]. destruct Hg as (Ha & Hr & Hc). split; [|split; [|split]].
      - unfold view, t_set_refresh, t_set_access, set_refresh, set_access.
        cbn [sv_config sv_clients sv_users sv_access sv_refresh sv_codes
             tsv_config tsv_clients tsv_users tsv_access tsv_refresh tsv_codes].
        by rewrite !view_revoke_code.
      - unfold t_set_refresh, t_set_access. split; [|split]; cbn [tsv_access tsv_refresh tsv_codes];
          stored.
      - done.
      - by left. }
    rewrite (Hcheck _ Hs). destruct (_ <? _)%Z; [same|].
    destruct (negb _); [same|]. destruct (negb _); [same|].
    fold (view f s). fold (see_env g ev). issue Hg Hcfg; [|same].
    destruct HI2 as (Ha & Hr & Hc).
    cbn [related]. split; [|split; [|split]].
    - unfold view, t_set_codes, set_codes.
      cbn [sv_config sv_clients sv_users sv_access sv_refresh sv_codes
           tsv_config tsv_clients tsv_users tsv_access tsv_refresh tsv_codes].
      by rewrite fmap_insert.
    - unfold t_set_codes. split; [|split]; cbn [tsv_access tsv_refresh tsv_codes];
        stored.
    - done.
    - by left.
  Qed.

  Lemma sim_handle_refresh s rq : all_good good s -> tsv_config s = cfg ->
    related (t_handle_refresh ev s rq) (handle_refresh (see_env g ev) (view f s) rq).
  Proof.
    intros Hg Hcfg. unfold t_handle_refresh, handle_refresh. cbn [view sv_config sv_refresh].
    destruct (parse_token _ _) as [tk|msg]; [|same].
    rewrite lookup_fmap. destruct (tsv_refresh s !! signature_string tk) as [stored|] eqn:El;
      cbn [fmap option_fmap option_map]; [|same].
    assert (Hs : good (tcd_expires_at stored)) by exact (proj1 (proj2 Hg) _ _ El).
    cbn [view_cred cd_used cd_expires_at cd_client_id cd_redirect_uri cd_scope cd_username see_env ev_now_check].
    rewrite (Hcheck _ Hs). destruct (_ <? _)%Z; [same|].
    destruct (negb _); [same|]. destruct (negb _); [same|].
    fold (view f s). fold (see_env g ev). issue Hg Hcfg; [|same].
    destruct HI2 as (Ha & Hr & Hc).
    cbn [related]. split; [|split; [|split]].
    - unfold view, t_set_refresh, set_refresh.
      cbn [sv_config sv_clients sv_users sv_access sv_refresh sv_codes
           tsv_config tsv_clients tsv_users tsv_access tsv_refresh tsv_codes].
      by rewrite fmap_delete.
    - unfold t_set_refresh. split; [|split]; cbn [tsv_access tsv_refresh tsv_codes];
        stored.
    - done.
    - by left.
  Qed.

  Lemma sim_token s r : all_good good s -> tsv_config s = cfg ->
    related (t_token_endpoint ev s r) (token_endpoint (see_env g ev) (view f s) r).
  Proof.
    intros Hg Hcfg. unfold t_token_endpoint, token_endpoint.
    destruct (parse_token_request r) as [rq|e]; [|same].
    destruct (negb _); [same|]. cbn [view sv_clients].
    destruct (tsv_clients s !! _) as [cl|]; [|same].
    destruct (negb _); [same|]. fold (view f s).
    destruct (seqb _ _); [by apply sim_password|]. destruct (seqb _ _); [by apply sim_client|].
    destruct (seqb _ _); [by apply sim_handle_code|by apply sim_handle_refresh].
  Qed.

  Lemma sim_prologue s r : lookup_prologue (view f s) r = t_lookup_prologue s r.
  Proof. done. Qed.

  Lemma view_revoke_token id m k :
    view_cred f <$> t_revoke_token id m k = revoke_token id (view_cred f <$> m) k.
  Proof.
    unfold t_revoke_token, revoke_token. rewrite lookup_fmap.
    destruct (m !! k) as [c|]; cbn [fmap option_fmap option_map]; [|done].
    cbn [view_cred cd_client_id]. destruct (negb _); [done|]. by rewrite fmap_delete.
  Qed.
  Lemma sim_revocation s r : all_good good s -> tsv_config s = cfg ->
    related (t_revocation_endpoint s r) (revocation_endpoint (view f s) r).
  Proof.
    intros Hg Hcfg. unfold t_revocation_endpoint, revocation_endpoint. rewrite sim_prologue.
    destruct (t_lookup_prologue s r) as [[rq tk]|e]; [|same].
    set (sg := signature_string tk).
    assert (Hfin : forall s1, all_good good s1 -> tsv_config s1 = cfg ->
      related
        (match tsv_refresh s1 !! sg with
         | None => TDone s1 ORevoked
         | Some f => if negb (seqb (tcd_client_id f) (lq_client_id rq))
                     then TDone s1 (OError (InvalidClient "wrong client"))
                     else TDone (t_set_refresh s1 (t_revoke_token (lq_client_id rq) (tsv_refresh s1) sg)) ORevoked
         end)
        (match sv_refresh (view f s1) !! sg with
         | None => Done (view f s1) ORevoked
         | Some f0 => if negb (seqb (cd_client_id f0) (lq_client_id rq))
                     then Done (view f s1) (OError (InvalidClient "wrong client"))
                     else Done (set_refresh (view f s1) (revoke_token (lq_client_id rq) (sv_refresh (view f s1)) sg)) ORevoked
         end)).
    { intros s1 Hg1 Hcfg1. cbn [view sv_refresh]. fold (view f s1). rewrite lookup_fmap.
      destruct (tsv_refresh s1 !! sg) as [c|]; cbn [fmap option_fmap option_map]; [|same].
      cbn [view_cred cd_client_id]. destruct (negb _); [same|].
      destruct Hg1 as (Ha & Hr & Hc). cbn [related]. split; [|split; [|split]].
      - unfold view, t_set_refresh, set_refresh.
        cbn [sv_config sv_clients sv_users sv_access sv_refresh sv_codes
             tsv_config tsv_clients tsv_users tsv_access tsv_refresh tsv_codes].
        by rewrite view_revoke_token.
      - unfold t_set_refresh. split; [|split]; cbn [tsv_access tsv_refresh tsv_codes];
        stored.
      - done.
      - by left. }
    cbn [view sv_access]. fold (view f s). rewrite lookup_fmap.
    destruct (tsv_access s !! sg) as [c|]; cbn [fmap option_fmap option_map]; [|by apply Hfin].
    cbn [view_cred cd_client_id]. destruct (negb _); [same|].
    rewrite <- view_revoke_token.
    assert (Hv : set_access (view f s) (view_cred f <$> t_revoke_token (lq_client_id rq) (tsv_access s) sg)
                 = view f (t_set_access s (t_revoke_token (lq_client_id rq) (tsv_access s) sg))) by done.
    rewrite Hv. apply Hfin; [|done].
    destruct Hg as (Ha & Hr & Hc). unfold t_set_access. split; [|split]; cbn [tsv_access tsv_refresh tsv_codes];
        stored.
  Qed.

  Lemma related_near s o o' : all_good good s -> tsv_config s = cfg -> near o o' ->
    related (TDone s o) (Done (view f s) o').
  Proof. intros Hg Hc Hn. split; [reflexivity|]. split; [exact Hg|]. split; [exact Hc|exact Hn]. Qed.

  Lemma sim_introspection s r : all_good good s -> tsv_config s = cfg ->
    related (t_introspection_endpoint s r) (introspection_endpoint (view f s) r).
  Proof.
    intros Hg Hcfg. unfold t_introspection_endpoint, introspection_endpoint. rewrite sim_prologue.
    destruct (t_lookup_prologue s r) as [[rq tk]|e]; [|same].
    set (sg := signature_string tk).
    assert (Hfin : forall o o', near (OIntro o) (OIntro o') ->
      related
        (match tsv_refresh s !! sg with
         | None => TDone s (OIntro o)
         | Some f => if negb (seqb (tcd_client_id f) (lq_client_id rq))
                     then TDone s (OError (InvalidClient "wrong client"))
                     else TDone s (OIntro (t_describe f RefreshToken))
         end)
        (match sv_refresh (view f s) !! sg with
         | None => Done (view f s) (OIntro o')
         | Some f0 => if negb (seqb (cd_client_id f0) (lq_client_id rq))
                     then Done (view f s) (OError (InvalidClient "wrong client"))
                     else Done (view f s) (OIntro (describe f0 RefreshToken))
         end)).
    { intros o o' Hn. cbn [view sv_refresh]. fold (view f s). rewrite lookup_fmap.
      destruct (tsv_refresh s !! sg) as [c|] eqn:El; cbn [fmap option_fmap option_map]; [|by apply related_near].
      cbn [cd_client_id view_cred]. destruct (negb _); [same|]. fold (view_cred f c).
      apply related_near; [done..|]. right. exists c, RefreshToken. split; [|done].
      exact (proj1 (proj2 Hg) _ _ El). }
    cbn [view sv_access]. fold (view f s). rewrite lookup_fmap.
    destruct (tsv_access s !! sg) as [c|] eqn:El; cbn [fmap option_fmap option_map].
    - cbn [cd_client_id view_cred]. destruct (negb _); [same|]. fold (view_cred f c).
      apply Hfin. right. exists c, AccessToken. split; [|done]. exact (proj1 Hg _ _ El).
    - apply Hfin. by left.
  Qed.

  Lemma sim_handle s r : all_good good s -> tsv_config s = cfg ->
    related (t_handle ev s r) (handle (see_env g ev) (view f s) r).
  Proof.
    intros Hg Hcfg. unfold t_handle, handle.
    destruct (seqb _ _); [by apply sim_authorization|].
    destruct (seqb _ _); [by apply sim_token|].
    destruct (seqb _ _); [by apply sim_introspection|].
    destruct (seqb _ _); [by apply sim_revocation|]. same.
  Qed.
End sim.
