(** Trimming, ParseScope and friends. *)
From Verif.Model Require Import Scope.
From Verif.Spec Require Import ScopeSpec.
From Verif.Proof Require Import StrFacts.

Lemma has_byte_contains c s : has_byte c s <-> contains c s = true.
Proof.
  split.
  - intros (a & b & ->). rewrite contains_app. cbn. by rewrite Ascii.eqb_refl, orb_true_r.
  - intros H. destruct (cut c s) as [[x y]|] eqn:E.
    + apply cut_some in E as [-> _]. by exists x, y.
    + apply cut_none in E. congruence.
Qed.
Lemma not_has_byte c s : ~ has_byte c s <-> contains c s = false.
Proof. rewrite has_byte_contains. destruct (contains c s); split; congruence. Qed.

Lemma space_encodings_spec e : In e space_encodings <-> exists n, In n white_space /\ e = utf8 n.
Proof.
  assert (H : space_encodings = map utf8 white_space) by (vm_compute; reflexivity).
  rewrite H, in_map_iff. split; intros (n & A & B); exists n; auto.
Qed.

Lemma space_encodings_nonempty e : In e space_encodings -> e <> "".
Proof.
  intros H. assert (HF : forallb (fun e => negb (seqb e "")) space_encodings = true)
    by (vm_compute; reflexivity).
  rewrite forallb_forall in HF. apply HF in H. by apply negb_seqb_true in H.
Qed.

(** ** Reversal *)
Lemma srev_app_spec s acc : srev_app s acc = srev s +:+ acc.
Proof.
  unfold srev. revert acc. induction s as [|a s IH]; intros acc; cbn; [done|].
  rewrite IH, (IH (String a "")), app_assoc_s. done.
Qed.
Lemma srev_cons a s : srev (String a s) = srev s +:+ str1 a.
Proof. unfold srev at 1. cbn. by rewrite srev_app_spec. Qed.
Lemma srev_app_rev s t : srev (s +:+ t) = srev t +:+ srev s.
Proof.
  induction s as [|a s IH]; [by rewrite app_nil_s, app_nil_r_s|].
  by rewrite app_cons_s, !srev_cons, IH, app_assoc_s.
Qed.
Lemma srev_srev s : srev (srev s) = s.
Proof. induction s as [|a s IH]; [done|]. by rewrite srev_cons, srev_app_rev, IH. Qed.
Lemma slen_srev s : slen (srev s) = slen s.
Proof. induction s as [|a s IH]; [done|]. rewrite srev_cons, slen_app, IH. cbn. lia. Qed.

(** ** Trimming at the left *)
Lemma strip_one_some encs s r : strip_one encs s = Some r ->
  exists e, In e encs /\ s = e +:+ r.
Proof.
  unfold strip_one. induction encs as [|e encs IH]; cbn; [discriminate|].
  destruct (strip_prefix e s) eqn:E.
  - intros [= <-]. apply strip_prefix_some in E. eauto.
  - intros H. destruct (IH H) as (e' & ? & ?). eauto.
Qed.
Lemma strip_one_none encs s : strip_one encs s = None ->
  forall e r, In e encs -> s <> e +:+ r.
Proof.
  unfold strip_one. induction encs as [|e encs IH]; cbn; [tauto|].
  destruct (strip_prefix e s) eqn:E; [discriminate|].
  intros H e' r [<-|Hin]; [|by apply IH].
  intros ->. rewrite strip_prefix_app in E. discriminate.
Qed.

Lemma trim_left_fuel_spec encs n s :
  (forall e, In e encs -> e <> "") -> slen s <= n ->
  (exists l, Forall (fun e => In e encs) l /\
    s = concat_all l +:+ trim_left_fuel encs n s) /\
  (forall e r, In e encs -> trim_left_fuel encs n s <> e +:+ r).
Proof.
  intros He. revert s. induction n as [|n IH]; intros s Hn.
  - destruct s; [|cbn in Hn; lia]. cbn. split; [by exists []|].
    intros e r Hin H. symmetry in H. apply app_eq_nil in H as [-> _]. by apply (He "").
  - cbn. destruct (strip_one encs s) as [r|] eqn:E.
    + apply strip_one_some in E as (e & Hin & ->).
      assert (slen r <= n).
      { rewrite slen_app in Hn. specialize (He e Hin). destruct e; [done|]. cbn in Hn. lia. }
      destruct (IH r) as [(l & Hl & Heq) Hno]; [done|]. split; [|done].
      exists (e :: l). split; [by constructor|]. cbn. rewrite app_assoc_s. by f_equal.
    + split; [by exists []|]. by apply strip_one_none.
Qed.

Lemma trim_left_with_fix encs s : (forall e r, In e encs -> s <> e +:+ r) ->
  trim_left_with encs s = s.
Proof.
  intros H. unfold trim_left_with. destruct (slen s) as [|n]; [done|]. cbn.
  destruct (strip_one encs s) eqn:E; [|done]. apply strip_one_some in E as (e & Hin & ->).
  by destruct (H e s0 Hin).
Qed.

Lemma only_white_concat l : Forall (fun e => In e space_encodings) l -> only_white (concat_all l).
Proof.
  induction 1 as [|e l He Hl IH]; [by exists []|].
  apply space_encodings_spec in He as (n & Hn & ->). destruct IH as (cps & Hc & Heq).
  exists (n :: cps). split; [by constructor|]. cbn. unfold concat_all in *. by rewrite Heq.
Qed.

Lemma concat_all_app l k : concat_all (l ++ k) = concat_all l +:+ concat_all k.
Proof. induction l as [|a l IH]; [done|]. cbn. unfold concat_all in *. by rewrite IH, app_assoc_s. Qed.

Lemma only_white_app s t : only_white s -> only_white t -> only_white (s +:+ t).
Proof.
  intros (l & Hl & ->) (k & Hk & ->). exists (l ++ k). split; [by apply Forall_app|].
  by rewrite map_app, concat_all_app.
Qed.

Lemma trim_left_spec s : exists p, only_white p /\ s = p +:+ trim_left s /\ ~ starts_white (trim_left s).
Proof.
  destruct (trim_left_fuel_spec space_encodings (slen s) s) as [(l & Hl & Heq) Hno];
    [apply space_encodings_nonempty|done|].
  exists (concat_all l). split; [by apply only_white_concat|]. split; [done|].
  intros (n & r & Hn & H). eapply (Hno (utf8 n) r); [|done].
  apply space_encodings_spec. eauto.
Qed.

Lemma concat_all_rev l : srev (concat_all l) = concat_all (rev (map srev l)).
Proof.
  induction l as [|a l IH]; [done|]. cbn [map rev concat_all fold_right]. rewrite concat_all_app.
  cbn. rewrite app_nil_r_s, srev_app_rev. unfold concat_all in IH at 1. by rewrite IH.
Qed.

Lemma trim_right_spec s : exists q, only_white q /\ s = trim_right s +:+ q /\ ~ ends_white (trim_right s).
Proof.
  unfold trim_right, trim_left_with.
  destruct (trim_left_fuel_spec (map srev space_encodings) (slen (srev s)) (srev s))
    as [(l & Hl & Heq) Hno].
  { intros e He. apply in_map_iff in He as (e' & <- & He). apply space_encodings_nonempty in He.
    intros H. apply He. rewrite <- (srev_srev e'), H. done. }
  { done. }
  set (t := trim_left_fuel _ _ _) in *. exists (srev (concat_all l)). split; [|split].
  - rewrite concat_all_rev. apply only_white_concat. apply Forall_rev, Forall_map.
    eapply Forall_impl; [done|]. intros e He.
    apply in_map_iff in He as (e' & <- & He). by rewrite srev_srev.
  - rewrite <- srev_app_rev, <- Heq, srev_srev. done.
  - intros (n & r & Hn & H). apply (Hno (srev (utf8 n)) (srev r)).
    + apply in_map, space_encodings_spec. eauto.
    + rewrite <- srev_app_rev, <- H, srev_srev. done.
Qed.

Lemma trim_space_spec s : exists p q, only_white p /\ only_white q /\
  s = p +:+ trim_space s +:+ q /\ ~ starts_white (trim_space s) /\ ~ ends_white (trim_space s).
Proof.
  unfold trim_space.
  destruct (trim_left_spec s) as (p & Hp & Heq & Hs).
  destruct (trim_right_spec (trim_left s)) as (q & Hq & Heq' & He).
  exists p, q. split; [done|]. split; [done|]. split; [by rewrite <- Heq'|]. split; [|done].
  intros (n & r & Hn & H). apply Hs. exists n, (r +:+ q). split; [done|].
  rewrite Heq', H, app_assoc_s. done.
Qed.

Lemma trim_space_fix s : ~ starts_white s -> ~ ends_white s -> trim_space s = s.
Proof.
  intros Hs He. unfold trim_space. replace (trim_left s) with s.
  - unfold trim_right. rewrite trim_left_with_fix; [apply srev_srev|].
    intros e r Hin H. apply in_map_iff in Hin as (e' & <- & Hin).
    apply space_encodings_spec in Hin as (n & Hn & ->).
    apply He. exists n, (srev r). split; [done|].
    by rewrite <- (srev_srev s), H, srev_app_rev, srev_srev.
  - unfold trim_left. rewrite trim_left_with_fix; [done|].
    intros e r Hin ->. apply space_encodings_spec in Hin as (n & Hn & ->). apply Hs. by exists n, r.
Qed.

Lemma only_white_cases s : only_white s -> s = "" \/ (starts_white s /\ ends_white s).
Proof.
  intros (cps & Hc & ->). destruct cps as [|n cps]; [by left|]. right. split.
  - inversion Hc; subst. exists n, (concat_all (map utf8 cps)). done.
  - destruct (exists_last (l := n :: cps)) as (l & m & Heq); [done|]. rewrite Heq in *.
    apply Forall_app in Hc as [_ Hm]. inversion Hm; subst.
    exists m, (concat_all (map utf8 l)). split; [done|].
    rewrite map_app, concat_all_app. cbn. by rewrite app_nil_r_s.
Qed.

(** ** ParseScope *)

Lemma items_parse_scope s :
  items (parse_scope s) = List.filter keep_item (map trim_space (split " " s)).
Proof. unfold parse_scope. by destruct (List.filter _ _). Qed.

Lemma contains_trim c s : contains c s = false -> contains c (trim_space s) = false.
Proof.
  destruct (trim_space_spec s) as (p & q & _ & _ & Heq & _). rewrite Heq at 1.
  rewrite !contains_app, !orb_false_iff. tauto.
Qed.

Lemma trim_good s : contains " " s = false -> trim_space s = "" \/ good_item (trim_space s).
Proof.
  intros Hc. destruct (trim_space_spec s) as (p & q & _ & _ & _ & Hs & He).
  destruct (seqb (trim_space s) "") eqn:E; [left; by apply seqb_true|right].
  apply seqb_false in E. split; [done|]. split; [|done].
  apply not_has_byte. by apply contains_trim.
Qed.

Lemma parse_scope_good s : Forall good_item (items (parse_scope s)).
Proof.
  rewrite items_parse_scope. apply Forall_forall. intros i Hi.
  apply elem_of_list_In, filter_In in Hi as [Hi Hk].
  apply in_map_iff in Hi as (x & <- & Hx). apply split_contains in Hx.
  apply trim_good in Hx as [H|H]; [|done]. rewrite H in Hk. discriminate.
Qed.

Lemma good_items_fix l : Forall good_item l ->
  items (parse_scope (join " " l)) = l.
Proof.
  intros H. rewrite items_parse_scope. destruct l as [|x l]; [done|].
  change " "%string with (str1 " "). rewrite (split_join " " (x :: l)); [|done|].
  - induction H as [|y k Hy Hk IH]; [done|]. cbn. destruct Hy as (Hne & _ & Hs & He).
    rewrite trim_space_fix by done. unfold keep_item at 1. rewrite (proj2 (seqb_false y "") Hne).
    cbn. by rewrite IH.
  - eapply Forall_impl; [done|]. intros i (_ & Hb & _). by apply not_has_byte.
Qed.

Lemma parse_scope_some s : parse_scope s <> Some [].
Proof. unfold parse_scope. by destruct (List.filter _ _). Qed.
Lemma parse_scope_items_inj s t : items (parse_scope s) = items (parse_scope t) -> parse_scope s = parse_scope t.
Proof.
  pose proof (parse_scope_some s). pose proof (parse_scope_some t).
  destruct (parse_scope s) as [[|]|], (parse_scope t) as [[|]|]; cbn; congruence.
Qed.

(** Every piece between spaces is split into white space, core, white space. *)
Lemma c07_decomposition s : exists pieces : list (string * string * string),
  s = join " " (map (fun p => p.1.1 +:+ p.1.2 +:+ p.2) pieces) /\
  Forall (fun p => only_white p.1.1 /\ only_white p.2 /\ (p.1.2 = "" \/ good_item p.1.2) /\
            ~ has_byte " " (p.1.1 +:+ p.1.2 +:+ p.2)) pieces /\
  items (parse_scope s) = List.filter (fun i => negb (String.eqb i "")) (map (fun p => p.1.2) pieces).
Proof.
  rewrite items_parse_scope.
  assert (H : forall l, Forall (fun x => contains " " x = false) l ->
    exists pieces : list (string * string * string),
      l = map (fun p => p.1.1 +:+ p.1.2 +:+ p.2) pieces /\
      Forall (fun p => only_white p.1.1 /\ only_white p.2 /\ (p.1.2 = "" \/ good_item p.1.2) /\
            ~ has_byte " " (p.1.1 +:+ p.1.2 +:+ p.2)) pieces /\
      map trim_space l = map (fun p => p.1.2) pieces).
  { induction 1 as [|x l Hx Hl IH]; [by exists []|].
    destruct IH as (ps & Heq & HF & Hm).
    destruct (trim_space_spec x) as (p & q & Hp & Hq & Hxe & _).
    exists ((p, trim_space x, q) :: ps). cbn [map fst snd]. split; [congruence|]. split; [|congruence].
    constructor; [|done]. cbn [fst snd]. split; [done|]. split; [done|]. split; [by apply trim_good|].
    rewrite <- Hxe. by apply not_has_byte. }
  destruct (H (split " " s)) as (ps & Heq & HF & Hm).
  { apply Forall_forall. intros x Hx. apply elem_of_list_In in Hx. by eapply split_contains. }
  exists ps. split; [rewrite <- Heq; symmetry; apply (join_split " ")|]. split; [done|].
  by rewrite Hm.
Qed.

Lemma utf8_white_nospace n : In n white_space -> n = 32%N \/ contains " " (utf8 n) = false.
Proof.
  intros H. assert (HF : forallb (fun n => N.eqb n 32 || negb (contains " " (utf8 n))) white_space = true)
    by (vm_compute; reflexivity).
  rewrite forallb_forall in HF. apply HF in H. apply orb_true_iff in H as [H|H].
  - left. by apply N.eqb_eq.
  - right. by apply negb_true_iff.
Qed.

Lemma only_white_split s : only_white s -> Forall only_white (split " " s).
Proof.
  intros (cps & Hc & ->). induction Hc as [|n cps Hn Hc IH].
  - repeat constructor. by exists [].
  - cbn [map concat_all fold_right]. unfold concat_all in IH.
    set (t := fold_right String.append "" (map utf8 cps)) in *.
    destruct (utf8_white_nospace n Hn) as [->|Hns].
    + change (utf8 32 +:+ t) with (String " " t). cbn. constructor; [by exists []|done].
    + assert (Hsp : exists h r, split " " t = h :: r /\ split " " (utf8 n +:+ t) = (utf8 n +:+ h) :: r).
      { revert Hns. generalize (utf8 n). intros u. induction u as [|a u IHu]; intros Hu.
        - rewrite app_nil_s. destruct (split " " t) as [|h r] eqn:E; [by apply split_nonnil in E|].
          exists h, r. split; [done|]. by rewrite app_nil_s.
        - cbn in Hu. apply orb_false_iff in Hu as [Ha Hu]. destruct (IHu Hu) as (h & r & H1 & H2).
          exists h, r. split; [done|]. rewrite !app_cons_s. cbn. rewrite Ha, H2. done. }
      destruct Hsp as (h & r & H1 & H2). rewrite H1 in IH. rewrite H2.
      inversion IH as [|? ? Hh Hr]; subst. constructor; [|done].
      destruct Hh as (l & Hl & ->). exists (n :: l). split; [by constructor|done].
Qed.

Lemma only_white_join l : Forall only_white l -> only_white (join " " l).
Proof.
  induction 1 as [|x l Hx Hl IH]; [by exists []|]. destruct l as [|y l]; [done|].
  rewrite join_cons. apply only_white_app; [done|]. apply only_white_app; [|done].
  exists [32%N]. split; [|done]. constructor; [cbn; tauto|constructor].
Qed.

Lemma trim_only_white s : trim_space s = "" <-> only_white s.
Proof.
  split.
  - intros H. destruct (trim_space_spec s) as (p & q & Hp & Hq & Heq & _).
    rewrite H, app_nil_s in Heq. rewrite Heq. by apply only_white_app.
  - intros H. destruct (seqb (trim_space s) "") eqn:E; [by apply seqb_true|].
    apply seqb_false in E. exfalso. revert E.
    (* a piece of white space with a core contradicts the shape of the encodings *)
    assert (Hl : trim_left s = "").
    { destruct (trim_left_spec s) as (p & Hp & Heq & Hno).
      destruct H as (cps & Hc & ->). revert p Hp Heq Hno.
      generalize (trim_left (concat_all (map utf8 cps))). intros t.
      induction Hc as [|n cps Hn Hc IH]; intros p Hp Heq Hno.
      - symmetry in Heq. cbn in Heq. by apply app_eq_nil in Heq as [_ ->].
      - destruct Hp as (ms & Hms & ->). destruct ms as [|m ms].
        + exfalso. apply Hno. cbn in Heq. rewrite app_nil_s in Heq.
          exists n, (concat_all (map utf8 cps)). split; [done|]. by rewrite <- Heq.
        + inversion Hms as [|? ? Hm Hms']; subst.
          cbn [map concat_all fold_right] in Heq. rewrite app_assoc_s in Heq.
          assert (Hpre : utf8 n = utf8 m).
          { assert (HP : forallb (fun n => forallb (fun m =>
              match strip_prefix (utf8 n) (utf8 m) with
              | Some _ => seqb (utf8 n) (utf8 m) | None => true end) white_space) white_space = true)
              by (vm_compute; reflexivity).
            assert (HP' : forall n m r, In n white_space -> In m white_space ->
              utf8 m = utf8 n +:+ r -> utf8 n = utf8 m).
            { clear -HP. intros n m r Hn Hm H. rewrite forallb_forall in HP. specialize (HP n Hn).
              cbv beta in HP. rewrite forallb_forall in HP. specialize (HP m Hm). cbv beta in HP.
              rewrite H in HP at 1. rewrite strip_prefix_app in HP. by apply seqb_true. }
            assert (Hcmp : forall a b x y, a +:+ x = b +:+ y ->
              (exists r, b = a +:+ r) \/ (exists r, a = b +:+ r)).
            { clear. induction a as [|c a IH]; intros b x y H; [left; by exists b|].
              destruct b as [|d b]; [right; by eexists|].
              rewrite !app_cons_s in H. injection H as -> H.
              destruct (IH _ _ _ H) as [[r ->]|[r ->]]; [left|right]; by exists r. }
            destruct (Hcmp _ _ _ _ Heq) as [[r Hr]|[r Hr]].
            - eapply HP'; eauto.
            - symmetry. eapply HP'; eauto. }
          rewrite Hpre in Heq. apply app_inj_l in Heq.
          eapply IH; [|exact Heq|done]. exists ms. done. }
    unfold trim_space. rewrite Hl. done.
Qed.

Lemma parse_scope_none s : parse_scope s = None <-> only_white s.
Proof.
  split.
  - intros H. assert (Hi : items (parse_scope s) = []) by (by rewrite H).
    rewrite items_parse_scope in Hi.
    rewrite <- (join_split " " s). apply only_white_join.
    revert Hi. induction (split " " s) as [|x l IH]; [constructor|]. cbn.
    unfold keep_item at 1. destruct (seqb (trim_space x) "") eqn:E; cbn; [|discriminate].
    intros Hi. constructor; [|auto]. apply trim_only_white. by apply seqb_true.
  - intros H. unfold parse_scope. apply only_white_split in H.
    replace (List.filter keep_item _) with (@nil string); [done|]. symmetry.
    induction H as [|x l Hx Hl IH]; [done|]. cbn. apply trim_only_white in Hx. by rewrite Hx.
Qed.

(** ** Inclusion *)
Lemma contains_item_spec l x : contains_item l x = true <-> In x l.
Proof.
  induction l as [|i l IH]; cbn; [split; [discriminate|tauto]|].
  destruct (seqb i x) eqn:E.
  - apply seqb_true in E. tauto.
  - apply seqb_false in E. rewrite IH. tauto.
Qed.
Lemma scope_contains_spec s x : scope_contains s x = true <-> In x (items s).
Proof. apply contains_item_spec. Qed.
Lemma scope_includes_spec s t : scope_includes s t = true <-> forall x, In x (items t) -> In x (items s).
Proof.
  unfold scope_includes. induction (items t) as [|i l IH]; cbn; [split; [tauto|done]|].
  destruct (scope_contains s i) eqn:E; cbn.
  - apply scope_contains_spec in E. rewrite IH. split.
    + intros H x [<-|Hx]; auto.
    + intros H x Hx. auto.
  - split; [discriminate|]. intros H. exfalso.
    assert (scope_contains s i = true) by (apply scope_contains_spec; auto). congruence.
Qed.
Lemma scope_empty_spec s : scope_empty s = true <-> items s = [].
Proof. unfold scope_empty. rewrite Nat.eqb_eq. destruct (items s); cbn; split; congruence. Qed.
