(** When a challenge can be read back. *)
From Verif.Model Require Import Bearer.
From Verif.Spec Require Import WireSpec.
From Verif.Proof Require Import StrFacts WireFacts WireProofs.

Fixpoint dq_at (i : nat) (s : string) {struct s} : Prop :=
  match s with
  | "" => False
  | String a r => match i with O => a = dq_char | S j => dq_at j r end
  end.
Lemma dq_at_contains i s : dq_at i s -> contains dq_char s = true.
Proof.
  revert i. induction s as [|a s IH]; intros i; [done|]. cbn [contains dq_at]. destruct i as [|j].
  - intros ->. by rewrite Ascii.eqb_refl.
  - intros H. rewrite (IH _ H). apply orb_true_r.
Qed.
Lemma dq_at_app i u w : i < slen u -> dq_at i (u +:+ w) -> dq_at i u.
Proof.
  revert i. induction u as [|a u IH]; intros i; [cbn; lia|]. rewrite app_cons_s. cbn [dq_at String.length]. destruct i as [|j]; [done|].
  intros Hi. apply IH. lia.
Qed.

Lemma read_quoted_through n : forall u t x rest, slen u <= n -> contains dq_char u = false ->
  read_quoted (u +:+ String dq_char t) = Some (x, rest) ->
  (contains dq_char x = false /\ slen x <= slen u /\ (contains bs_char u = true -> slen x < slen u)) \/
  exists i, i < slen u /\ dq_at i x.
Proof.
  induction n as [|n IH]; intros u t x rest Hn Hu H.
  { destruct u; [|cbn in Hn; lia]. cbn in H. injection H as <- _. left. repeat split; done. }
  destruct u as [|a u]; [cbn in H; injection H as <- _; left; repeat split; done|].
  cbn [contains] in Hu. apply orb_false_iff in Hu as [Ha Hu]. rewrite app_cons_s in H. cbn [read_quoted] in H. rewrite Ha in H.
  cbn [String.length] in Hn. destruct (Ascii.eqb a bs_char) eqn:Eb.
  - destruct u as [|b u].
    + change ("" +:+ String dq_char t) with (String dq_char t) in H. cbv iota in H. destruct (read_quoted t) as [[y rest']|]; [|done]. injection H as <- _. right. exists 0. cbn. split; [lia|done].
    + rewrite app_cons_s in H. destruct (read_quoted (u +:+ String dq_char t)) as [[y rest']|] eqn:Ey; [|done]. injection H as <- _.
      cbn [contains] in Hu. apply orb_false_iff in Hu as [Hb Hu]. cbn [String.length] in Hn.
      destruct (IH u t y rest' ltac:(lia) Hu Ey) as [(H1 & H2 & _)|(i & H1 & H2)].
      * left. cbn [contains String.length]. rewrite Hb, H1. split; [done|]. split; intros; lia.
      * right. exists (S i). cbn [String.length dq_at]. split; [lia|done].
  - destruct (read_quoted (u +:+ String dq_char t)) as [[y rest']|] eqn:Ey; [|done]. injection H as <- _.
    destruct (IH u t y rest' ltac:(lia) Hu Ey) as [(H1 & H2 & H3)|(i & H1 & H2)].
    + left. cbn [contains String.length]. rewrite Ha, H1, Eb. split; [done|]. split; [lia|]. cbn [orb]. intros Hx. specialize (H3 Hx). lia.
    + right. exists (S i). cbn [String.length dq_at]. split; [lia|done].
Qed.

Lemma first_dq v : contains dq_char v = true -> exists u w, v = u +:+ String dq_char w /\ contains dq_char u = false.
Proof.
  induction v as [|a v IH]; [done|]. cbn [contains]. destruct (Ascii.eqb a dq_char) eqn:E.
  - intros _. apply Ascii.eqb_eq in E. subst a. by exists "", v.
  - cbn [orb]. intros H. destruct (IH H) as (u & w & -> & Hu). exists (String a u), w. split; [done|]. cbn [contains]. by rewrite E, Hu.
Qed.

Lemma read_quoted_back v t rest : read_quoted (v +:+ String dq_char t) = Some (v, rest) -> quotable v.
Proof.
  intros H. apply quotable_contains. destruct (contains dq_char v) eqn:Ed.
  - exfalso. destruct (first_dq v Ed) as (u & w & -> & Hu).
    assert (Happ : (u +:+ String dq_char w) +:+ String dq_char t = u +:+ String dq_char (w +:+ String dq_char t)).
    { rewrite app_assoc_s. done. }
    rewrite Happ in H. destruct (read_quoted_through (slen u) u _ _ _ (le_n _) Hu H) as [(H1 & _)|(i & Hi & Hd)].
    + rewrite contains_app, Hu in H1. cbn in H1. done.
    + apply dq_at_app in Hd; [|done]. apply dq_at_contains in Hd. congruence.
  - split; [done|]. destruct (read_quoted_through (slen v) v t _ _ (le_n _) Ed H) as [(_ & _ & H3)|(i & _ & Hd)].
    + destruct (contains bs_char v) eqn:Eb; [|done]. specialize (H3 eq_refl). lia.
    + apply dq_at_contains in Hd. congruence.
Qed.

Definition plain_key (kv : string * string) : Prop :=
  contains "=" (fst kv) = false /\ exists a r, fst kv = String a r /\ Ascii.eqb a "," || Ascii.eqb a " " = false.

Lemma read_params_back ps fuel qs : Forall plain_key ps -> NoDup (map fst ps) ->
  read_auth_params fuel (join ", " (map param ps)) = Some qs -> NoDup (map fst qs) ->
  (forall kv, In kv ps -> In kv qs) -> forall k v, In (k, v) ps -> quotable v.
Proof.
  intros HF. revert fuel qs. induction HF as [|[k v] ps (Hk & (a & r & Ha & Hsep)) HF IH]; intros fuel qs Hnd H Hnq Hin; [by intros ? ? []|].
  cbn in Hk, Ha. destruct fuel as [|fuel]; [done|].
  cbn [map fst] in Hnd. apply NoDup_cons in Hnd as [Hni Hnd].
  assert (Hone : forall tail, read_auth_params (S fuel) (param (k, v) +:+ tail) =
    match read_quoted (v +:+ String dq_char tail) with
    | Some (value, rest) => match read_auth_params fuel (skip_separator rest) with Some l => Some ((k, value) :: l) | None => None end
    | None => None end).
  { intros tail. unfold param. cbn [fst snd]. snorm. unfold str1. snorm.
    change ("=" +:+ String dquote (v +:+ String dquote tail))
      with (String "=" (String dquote (v +:+ String dquote tail))).
    rewrite Ha. rewrite app_cons_s. cbn [read_auth_params].
    rewrite <- app_cons_s, <- Ha, read_name_plain by done.
    change (Ascii.eqb dquote dq_char) with true. cbv iota. done. }
  assert (Hgo : forall tail, read_auth_params (S fuel) (param (k, v) +:+ tail) = Some qs ->
     quotable v /\ exists l, qs = (k, v) :: l /\ read_auth_params fuel (skip_separator tail) = Some l).
  { intros tail Hq. rewrite Hone in Hq. destruct (read_quoted (v +:+ String dq_char tail)) as [[value rest]|] eqn:Er; [|done].
    destruct (read_auth_params fuel (skip_separator rest)) as [l'|] eqn:El; [|done]. injection Hq as <-.
    assert (value = v) as ->.
    { destruct (Hin (k, v) (or_introl eq_refl)) as [Heq|Hl]; [by injection Heq|].
      cbn [map fst] in Hnq. apply NoDup_cons in Hnq as [Hnk _]. destruct Hnk. rewrite elem_of_list_In.
      apply (in_map fst) in Hl. exact Hl. }
    pose proof (read_quoted_back _ _ _ Er) as Hv. split; [done|]. pose proof Hv as Hv'. apply quotable_contains in Hv' as [Hv1 Hv2].
    rewrite read_quoted_plain in Er by done. injection Er as <-. by exists l'. }
  destruct ps as [|p2 ps].
  - cbn [map] in H. rewrite join_one, <- (app_nil_r_s (param (k, v))) in H. destruct (Hgo "" H) as [Hv _].
    intros k' v' [[= <- <-]|[]]. done.
  - cbn [map] in H. rewrite join_cons in H. destruct (Hgo _ H) as (Hv & l & -> & Hl).
    change (", " +:+ join ", " (param p2 :: map param ps)) with (String "," (String " " (join ", " (map param (p2 :: ps))))) in Hl.
    cbn [skip_separator] in Hl. change (Ascii.eqb "," "," || Ascii.eqb "," " ") with true in Hl.
    change (Ascii.eqb " " "," || Ascii.eqb " " " ") with true in Hl. cbv iota in Hl.
    assert (Hskip : skip_separator (join ", " (map param (p2 :: ps))) = join ", " (map param (p2 :: ps))).
    { inversion HF as [|? ? (_ & (a2 & r2 & Ha2 & Hs2)) _]; subst.
      destruct p2 as [k2 v2]. cbn in Ha2. subst k2.
      assert (Hh : exists t, join ", " (map param ((String a2 r2, v2) :: ps)) = String a2 t).
      { cbn [map]. destruct (map param ps) as [|y l0].
        - rewrite join_one. unfold param. cbn [fst snd]. snorm. by eexists.
        - rewrite join_cons. unfold param at 1. cbn [fst snd]. snorm. by eexists. }
      destruct Hh as [t ->]. cbn [skip_separator]. by rewrite Hs2. }
    rewrite Hskip in Hl. cbn [map fst] in Hnq. apply NoDup_cons in Hnq as [_ Hnl].
    intros k' v' [[= <- <-]|Hkv]; [done|]. apply (IH fuel l Hnd Hl Hnl) with k'; [|done].
    intros kv Hkv'. destruct (Hin kv (or_intror Hkv')) as [<-|?]; [|done]. exfalso. apply Hni. rewrite elem_of_list_In.
    apply (in_map fst) in Hkv'. exact Hkv'.
Qed.

Lemma c13_exact : forall e,
  valid_status (e_status e) -> e_status e <> 500%Z ->
  exists w h header,
    write_bearer_error new_rw (GErr e) = Some (w, true) /\
    rw_sent w = Some (e_status e, h) /\ h !! "Www-Authenticate" = Some [header] /\
    ((exists ps, read_challenge "Bearer" header = Some ps /\ NoDup (map fst ps) /\
        forall k v, error_param e k v -> In (k, v) ps) <->
     forall k v, error_param e k v -> quotable v).
Proof.
  intros e Hv H5. pose proof (write_bearer_fresh e Hv H5) as HW. cbv zeta in HW.
  eexists _, _, _. split; [exact HW|]. cbn [rw_sent]. split; [done|].
  split; [unfold headers; apply lookup_singleton|]. split.
  - intros (ps & Hr & Hnd & Hall) k v Hkv. destruct (seqb (error_params e) "") eqn:E.
    { apply seqb_true, error_params_nil in E. apply error_map_spec in Hkv. by rewrite E, lookup_empty in Hkv. }
    destruct (sorted_params (map_to_list (error_map e))) as (qs & Hp & Heq). unfold read_challenge in Hr.
    change (strip_prefix ("Bearer" +:+ " ") ("Bearer " +:+ error_params e)) with (Some (error_params e)) in Hr. cbv iota in Hr. unfold error_params in Hr. rewrite Heq in Hr.
    assert (Hin : forall kv, In kv qs <-> error_param e (fst kv) (snd kv)).
    { intros [k1 v1]. rewrite <- elem_of_list_In, Hp, elem_of_map_to_list, error_map_spec. done. }
    refine (read_params_back qs _ ps _ _ Hr Hnd _ k v _).
    + apply List.Forall_forall. intros [k1 v1] H1. apply Hin in H1. by apply error_param_key in H1.
    + rewrite Hp. apply NoDup_fst_map_to_list.
    + intros [k1 v1] H1. apply Hin in H1. by apply Hall.
    + by apply Hin.
  - intros Hq. destruct (c13_partial e Hv H5 Hq) as (w & h & header & ps & Hw & Hs & Hh & Hr & Hnd & Hno & Hyes).
    rewrite HW in Hw. injection Hw as <-. cbn [rw_sent] in Hs. injection Hs as <-.
    unfold headers in Hh. rewrite lookup_singleton in Hh. injection Hh as <-.
    exists ps. split; [done|]. split; [done|]. intros k v Hkv. apply Hyes; eauto.
Qed.
