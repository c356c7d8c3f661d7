(** The hosts that see the credentials of a client after a redirect (C76). *)
From Verif.Model Require Import HttpClient.
From Verif.Spec Require Import ScopeSpec WireSpec RequestSpec ServerSpec ClientSpec TransportSpec HostSpec.
From Verif.Proof Require Import StrFacts UrlFacts UrlParse Redirect RequestProofs RequestParse ServerFacts TransportFacts TransportProofs.

#[local] Open Scope string_scope.

Lemma without_contains c s : without c s <-> contains c s = false.
Proof.
  unfold without. induction s as [|a s IH]; cbn; [tauto|]. rewrite orb_false_iff, <- IH.
  destruct (Ascii.eqb_spec a c); split; [tauto|intros [? _]; done|intuition|intuition].
Qed.

Lemma digits_bytes s : digits s -> all_bytes is_digit s = true.
Proof.
  unfold digits. induction s as [|a s IH]; intros H; [done|]. cbn [all_bytes]. rewrite IH by (intros b Hb; apply H; by right).
  rewrite andb_true_r. specialize (H a (or_introl eq_refl)). cbn in H.
  repeat (destruct H as [<-|H]; [reflexivity|]). done.
Qed.

Lemma digits_without c s : digits s -> ~ In c (list_ascii_of_string "0123456789") -> contains c s = false.
Proof. intros H Hc. apply without_contains. intros Hi. by apply Hc, H. Qed.

Lemma app_last c (x y x' y' : string) : x +:+ String c y = x' +:+ String c y' -> contains c y = false -> contains c y' = false ->
  x = x' /\ y = y'.
Proof.
  intros E Hy Hy'. assert (A : last_cut c (x +:+ String c y) = Some (x, y)) by (by apply last_cut_some).
  assert (B : last_cut c (x' +:+ String c y') = Some (x', y')) by (by apply last_cut_some). rewrite E in A. rewrite A in B. by inversion B.
Qed.

Lemma colon_string s : ":" +:+ s = String ":" s.
Proof. by rewrite app_cons_s, app_nil_s. Qed.

Lemma split_written s name port : written_host s name port -> split_host_port s = (name, port).
Proof.
  intros (Ho & Hc & Hd & H). apply without_contains in Ho, Hc. unfold split_host_port.
  assert (Hp : contains ":" port = false) by (apply digits_without; [done|]; cbn; intuition congruence).
  assert (Hv : valid_optional_port (String ":" port) = true) by (cbn; by apply digits_bytes).
  assert (Hplain : (match strip_prefix "[" name with
    | Some h => match last_cut "]" h with Some (x, "") => x | _ => name end | None => name end) = name).
  { destruct (strip_prefix "[" name) eqn:E; [|done]. apply strip_prefix_some in E as ->. rewrite contains_app in Ho. done. }
  assert (Hbr : (match strip_prefix "[" ("[" +:+ name +:+ "]") with
    | Some h => match last_cut "]" h with Some (x, "") => x | _ => "[" +:+ name +:+ "]" end | None => "[" +:+ name +:+ "]" end) = name).
  { rewrite (proj2 (strip_prefix_some "[" ("[" +:+ name +:+ "]") (name +:+ "]")) eq_refl).
    by rewrite (proj2 (last_cut_some "]" (name +:+ "]") name "") (conj eq_refl eq_refl)). }
  destruct H as [(-> & -> & Hn)|[->|[(-> & ->)| ->]]].
  - apply without_contains in Hn. rewrite (proj2 (last_cut_none ":" name) Hn). by rewrite Hplain.
  - rewrite colon_string, (proj2 (last_cut_some ":" _ name port) (conj eq_refl Hp)), Hv. by rewrite Hplain.
  - destruct (last_cut ":" ("[" +:+ name +:+ "]")) as [[h p]|] eqn:E; [|by rewrite Hbr].
    destruct (valid_optional_port (String ":" p)) eqn:V; [|by rewrite Hbr].
    exfalso. apply last_cut_some in E as [E _]. cbn in V.
    destruct (last_cut "]" (h +:+ String ":" p)) as [[x y]|] eqn:L.
    + rewrite <- E in L. apply last_cut_some in L as [L Hy]. 
      change ("[" +:+ name +:+ "]") with ("[" +:+ (name +:+ String "]" "")) in L. rewrite <- app_assoc_s in L.
      destruct (app_last "]" _ _ _ _ L) as [_ <-]; [done|done|].
      assert (W : last_cut "]" (h +:+ String ":" p) = Some ("[" +:+ name, "")).
      { rewrite <- E. apply last_cut_some. split; [|done]. by rewrite app_assoc_s. }
      assert (Hq : contains "]" p = true).
      { destruct (contains "]" p) eqn:C; [done|]. exfalso.
        destruct (last_cut "]" h) as [[h1 h2]|] eqn:Lh.
        - apply last_cut_some in Lh as [-> Hh2].
          assert (last_cut "]" ((h1 +:+ String "]" h2) +:+ String ":" p) = Some (h1, h2 +:+ String ":" p)) as W'.
          { apply last_cut_some. split; [by rewrite app_assoc_s, app_cons_s|]. rewrite contains_app, Hh2. cbn. done. }
          rewrite W' in W. injection W as _ W2. destruct h2; discriminate.
        - apply last_cut_none in Lh. rewrite (proj2 (last_cut_none "]" _)) in W; [done|]. rewrite contains_app, Lh. cbn. done. }
      clear -V Hq. induction p as [|a p IH]; [done|]. cbn in V, Hq. apply andb_true_iff in V as [V1 V2]. apply orb_true_iff in Hq as [Hq|Hq]; [|by apply IH].
      apply Ascii.eqb_eq in Hq as ->. done.
    + rewrite <- E in L. apply last_cut_none in L. rewrite !contains_app in L. cbn in L. by rewrite orb_true_r in L.
  - assert (R : "[" +:+ name +:+ "]:" +:+ port = ("[" +:+ name +:+ "]") +:+ String ":" port).
    { rewrite <- (colon_string port), !app_assoc_s. done. }
    rewrite R, (proj2 (last_cut_some ":" _ _ port) (conj eq_refl Hp)), Hv. by rewrite Hbr.
Qed.

Lemma ascii_bytes s : ascii_text s -> all_bytes is_ascii s = true.
Proof.
  unfold ascii_text. induction s as [|a s IH]; intros H; [done|]. cbn [all_bytes]. rewrite IH by (intros b Hb; apply H; by right).
  rewrite andb_true_r. unfold is_ascii, ord. apply N.ltb_lt, H. by left.
Qed.

Lemma canonical_leads hc u name port : leads_to_host u name port -> canonical_addr hc u = join_host_port name port.
Proof.
  intros (Ha & p & Hw & Hp). unfold canonical_addr. rewrite (split_written _ _ _ Hw). unfold idna_ascii.
  rewrite (ascii_bytes _ Ha). destruct Hp as [(Hne & ->)|[(-> & Hs & ->)|(-> & Hs & ->)]].
  - apply seqb_false in Hne. by rewrite Hne.
  - change (seqb "" "") with true. cbn iota. rewrite Hs. reflexivity.
  - change (seqb "" "") with true. cbn iota. rewrite Hs. reflexivity.
Qed.

Lemma leads_clean u name port : leads_to_host u name port ->
  contains "[" name = false /\ contains "]" name = false /\ contains ":" port = false.
Proof.
  intros (_ & p & (Ho & Hc & Hd & _) & Hp). apply without_contains in Ho, Hc. split; [done|]. split; [done|].
  destruct Hp as [(_ & ->)|[(_ & _ & ->)|(_ & _ & ->)]]; [|done..].
  apply digits_without; [done|]. cbn; intuition congruence.
Qed.

(** The parts of an address. *)
Definition bracketed (h : string) : string := if contains ":" h then "[" +:+ h +:+ "]" else h.
Lemma join_bracketed h p : join_host_port h p = bracketed h +:+ String ":" p.
Proof.
  unfold join_host_port, bracketed. rewrite <- (colon_string p). destruct (contains ":" h); [|done].
  rewrite !app_assoc_s. done.
Qed.

Lemma bracketed_inj h h' : contains "[" h = false -> contains "[" h' = false -> bracketed h = bracketed h' -> h = h'.
Proof.
  unfold bracketed. intros Ho Ho' E. destruct (contains ":" h), (contains ":" h').
  - apply app_inj_l in E. by apply app_inj_r in E.
  - subst h'. by rewrite contains_app in Ho'.
  - subst h. by rewrite contains_app in Ho.
  - done.
Qed.

Lemma within_join h p h' p' :
  contains "[" h = false -> contains "]" h = false -> contains ":" p = false ->
  contains "[" h' = false -> contains "]" h' = false -> contains ":" p' = false ->
  within_domain (join_host_port h p) (join_host_port h' p') <-> same_or_below h p h' p'.
Proof.
  intros Ho Hc Hp Ho' Hc' Hp'. unfold within_domain, same_or_below. rewrite !join_bracketed. split.
  - intros [E|[x E]].
    + destruct (app_last _ _ _ _ _ E) as [E1 E2]; [done..|]. split; [done|]. left. by apply bracketed_inj.
    + assert (E' : bracketed h' +:+ String ":" p' = (x +:+ "." +:+ bracketed h) +:+ String ":" p) by (by rewrite !app_assoc_s).
      destruct (app_last _ _ _ _ _ E') as [E1 E2]; [done..|]. split; [done|]. right. clear E E' E2. unfold bracketed in E1.
      destruct (contains ":" h') eqn:C', (contains ":" h) eqn:C.
      * exfalso. assert (D : ("[" +:+ h') +:+ String "]" "" = (x +:+ "." +:+ "[" +:+ h) +:+ String "]" "") by (rewrite !app_assoc_s; exact E1).
        destruct (app_last _ _ _ _ _ D) as [D1 _]; [done..|].
        destruct x as [|a x]; [discriminate D1|]. rewrite !app_cons_s, !app_nil_s in D1. injection D1 as _ D1.
        rewrite D1, !contains_app in Ho'. cbn in Ho'. by rewrite !orb_true_r in Ho'.
      * exfalso. assert (D : ("[" +:+ h') +:+ String "]" "" = x +:+ "." +:+ h) by (rewrite !app_assoc_s; exact E1).
        assert (L : last_cut "]" (x +:+ "." +:+ h) = Some ("[" +:+ h', "")) by (rewrite <- D; by apply last_cut_some).
        apply last_cut_some in L as [L _].
        assert (Hh : contains "]" ("." +:+ h) = false) by (by rewrite contains_app).
        destruct (last_cut "]" x) as [[x1 x2]|] eqn:Lx.
        -- apply last_cut_some in Lx as [-> Hx2]. rewrite (app_assoc_s x1), (app_cons_s _ x2) in L.
           destruct (app_last _ _ _ _ _ L) as [_ Y]; [by rewrite contains_app, Hx2|done|]. destruct x2; discriminate.
        -- apply last_cut_none in Lx. assert (N : contains "]" (x +:+ "." +:+ h) = true).
           { rewrite L, contains_app. cbn. by rewrite orb_true_r. }
           rewrite contains_app, Lx, Hh in N. done.
      * exfalso. subst h'. rewrite !contains_app in Ho'. cbn in Ho'. by rewrite !orb_true_r in Ho'.
      * split; [by apply without_contains|]. by exists x.
  - intros (-> & [->|(C & x & ->)]); [by left|]. right. exists x. apply without_contains in C. unfold bracketed. rewrite C.
    rewrite !contains_app in C. apply orb_false_iff in C as [_ C]. apply orb_false_iff in C as [_ C]. rewrite C. by rewrite !app_assoc_s.
Qed.

Lemma c76_secret_host : forall n hc net c k i w w' host port host' port',
  has_secret k ->
  messages n hc net c k !! i = Some w -> messages n hc net c k !! S i = Some w' ->
  leads_to_host (ms_url w) host port -> leads_to_host (ms_url w') host' port' ->
  (same_or_below host port host' port' -> carries_secret w' k) /\
  (~ same_or_below host port host' port' -> u_user (ms_url w') = None -> header_get (ms_header w') "Authorization" = "").
Proof.
  intros n hc net c k i w w' h p h' p' Hk Hw Hw' Hl Hl'.
  destruct (leads_clean _ _ _ Hl) as (A1 & A2 & A3), (leads_clean _ _ _ Hl') as (B1 & B2 & B3).
  destruct (c76_secret n hc net c k i w w' Hk Hw Hw') as [Y N].
  rewrite (canonical_leads hc _ _ _ Hl), (canonical_leads hc _ _ _ Hl') in Y, N.
  assert (W := within_join h p h' p' A1 A2 A3 B1 B2 B3). split.
  - intros H. by apply Y, W.
  - intros H. apply N. intros D. by apply H, W.
Qed.

(** ** For the concrete cases *)

Lemma bytes_ascii s : all_bytes is_ascii s = true -> ascii_text s.
Proof.
  unfold ascii_text. induction s as [|a s IH]; intros H b Hb; [done|]. cbn [all_bytes] in H. apply andb_true_iff in H as [H1 H2].
  destruct Hb as [<-|Hb]; [|by apply IH]. by apply N.ltb_lt.
Qed.

Lemma leads_plain u s p : u_host u = s -> all_bytes is_ascii s = true -> contains "[" s = false -> contains "]" s = false ->
  contains ":" s = false -> (u_scheme u = "http" /\ p = "80" \/ u_scheme u = "https" /\ p = "443") -> leads_to_host u s p.
Proof.
  intros E H1 H2 H3 H4 H. split; [by apply bytes_ascii|]. exists "". split.
  - repeat split; [by apply without_contains..|intros a []|]. left. split; [done|]. split; [done|]. by apply without_contains.
  - intuition.
Qed.

Lemma leads_brackets u s : u_host u = "[" +:+ s +:+ "]" -> u_scheme u = "https" -> all_bytes is_ascii s = true ->
  contains "[" s = false -> contains "]" s = false -> leads_to_host u s "443".
Proof.
  intros Hh Hs H1 H2 H3. split; [by apply bytes_ascii|]. exists "". rewrite Hh, Hs. split; [|by right; right].
  repeat split; [by apply without_contains..|intros a []|]. right. right. left. done.
Qed.
