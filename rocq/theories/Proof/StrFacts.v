(** Facts about the string functions of Model/GoStr.v. *)
From Verif.Model Require Import GoStr.

(** ** Exhaustive checks over bytes and small numbers *)

Definition all_ascii : list ascii := map chr (map N.of_nat (seq 0 256)).

Lemma ascii_in_all a : In a all_ascii.
Proof.
  unfold all_ascii, chr. rewrite <- (ascii_N_embedding a).
  apply in_map. rewrite <- (N2Nat.id (N_of_ascii a)). apply in_map.
  apply in_seq. pose proof (N_ascii_bounded a). lia.
Qed.

Lemma ascii_forall (P : ascii -> bool) : forallb P all_ascii = true -> forall a, P a = true.
Proof. intros H a. rewrite forallb_forall in H. apply H, ascii_in_all. Qed.

Definition below (k : nat) : list N := map N.of_nat (seq 0 k).
Lemma in_below k n : (n < N.of_nat k)%N -> In n (below k).
Proof. intros H. rewrite <- (N2Nat.id n). apply in_map, in_seq. lia. Qed.
Lemma N_forall (P : N -> bool) k :
  forallb P (below k) = true -> forall n, (n < N.of_nat k)%N -> P n = true.
Proof. intros H n Hn. rewrite forallb_forall in H. apply H, in_below, Hn. Qed.

Lemma ord_lt a : (ord a < 256)%N.
Proof. apply N_ascii_bounded. Qed.
Lemma chr_ord a : chr (ord a) = a.
Proof. apply ascii_N_embedding. Qed.
Lemma ord_chr n : (n < 256)%N -> ord (chr n) = n.
Proof. apply N_ascii_embedding. Qed.
Lemma ord_inj a b : ord a = ord b -> a = b.
Proof. intros H. rewrite <- (chr_ord a), <- (chr_ord b), H. reflexivity. Qed.

(** ** Equality and append *)

Lemma seqb_true s t : seqb s t = true <-> s = t.
Proof. apply String.eqb_eq. Qed.
Lemma seqb_false s t : seqb s t = false <-> s <> t.
Proof. apply String.eqb_neq. Qed.
Lemma seqb_refl s : seqb s s = true.
Proof. apply String.eqb_refl. Qed.
Lemma negb_seqb_true s t : negb (seqb s t) = true <-> s <> t.
Proof. rewrite negb_true_iff. apply seqb_false. Qed.
Lemma negb_seqb_false s t : negb (seqb s t) = false <-> s = t.
Proof. rewrite negb_false_iff. apply seqb_true. Qed.

Lemma app_nil_s (s : string) : "" +:+ s = s.
Proof. reflexivity. Qed.
Lemma app_cons_s a (s t : string) : String a s +:+ t = String a (s +:+ t).
Proof. reflexivity. Qed.
Lemma app_nil_r_s (s : string) : s +:+ "" = s.
Proof. induction s; [reflexivity|]. rewrite app_cons_s. congruence. Qed.
Lemma app_assoc_s (s t u : string) : (s +:+ t) +:+ u = s +:+ (t +:+ u).
Proof. induction s; [reflexivity|]. rewrite !app_cons_s. congruence. Qed.
Lemma app_inj_l (s t u : string) : s +:+ t = s +:+ u -> t = u.
Proof. induction s; [done|]. rewrite !app_cons_s. intros [=]. auto. Qed.
Lemma slen_app s t : slen (s +:+ t) = slen s + slen t.
Proof. induction s; [reflexivity|]. rewrite app_cons_s. cbn. lia. Qed.
Lemma app_inj_r (s t u : string) : s +:+ u = t +:+ u -> s = t.
Proof.
  revert t. induction s as [|a s IH]; intros [|b t]; rewrite ?app_nil_s, ?app_cons_s; auto.
  - intros H. apply (f_equal slen) in H. cbn in H. rewrite slen_app in H. lia.
  - intros H. apply (f_equal slen) in H. cbn in H. rewrite slen_app in H. lia.
  - intros [= -> H]. f_equal. auto.
Qed.
Lemma app_eq_nil s t : s +:+ t = "" -> s = "" /\ t = "".
Proof. destruct s; [auto|]. rewrite app_cons_s. discriminate. Qed.

(** Normal form of appends. *)
Ltac snorm := repeat (rewrite app_cons_s || rewrite app_nil_s || rewrite app_assoc_s).
Tactic Notation "snorm" "in" hyp(H) :=
  repeat (rewrite app_cons_s in H || rewrite app_nil_s in H || rewrite app_assoc_s in H).

(** ** Membership of a byte *)

Fixpoint s_in (a : ascii) (s : string) : Prop :=
  match s with "" => False | String b r => b = a \/ s_in a r end.

Lemma contains_true c s : contains c s = true <-> s_in c s.
Proof.
  induction s as [|a s IH]; cbn; [split; [discriminate|tauto]|].
  rewrite orb_true_iff, IH, Ascii.eqb_eq. tauto.
Qed.
Lemma contains_false c s : contains c s = false <-> ~ s_in c s.
Proof. rewrite <- contains_true. destruct (contains c s); split; congruence. Qed.
Lemma s_in_app a s t : s_in a (s +:+ t) <-> s_in a s \/ s_in a t.
Proof. induction s as [|b s IH]; [cbn; tauto|]. rewrite app_cons_s. cbn. rewrite IH. tauto. Qed.
Lemma contains_app c s t : contains c (s +:+ t) = contains c s || contains c t.
Proof. induction s as [|b s IH]; [done|]. rewrite app_cons_s. cbn. rewrite IH. by rewrite orb_assoc. Qed.
Lemma all_bytes_app p s t : all_bytes p (s +:+ t) = all_bytes p s && all_bytes p t.
Proof. induction s as [|b s IH]; [done|]. rewrite app_cons_s. cbn. rewrite IH. by rewrite andb_assoc. Qed.
Lemma all_bytes_spec p s : all_bytes p s = true <-> forall a, s_in a s -> p a = true.
Proof.
  induction s as [|b s IH]; cbn; [split; [tauto|auto]|].
  rewrite andb_true_iff, IH. split.
  - intros [H1 H2] a [<-|Ha]; auto.
  - intros H. split; [apply H; auto|]. intros a Ha. apply H. auto.
Qed.
Lemma all_bytes_impl p q s :
  (forall a, p a = true -> q a = true) -> all_bytes p s = true -> all_bytes q s = true.
Proof. rewrite !all_bytes_spec. auto. Qed.
Lemma all_bytes_not_contains p c s : all_bytes p s = true -> p c = false -> contains c s = false.
Proof.
  rewrite all_bytes_spec, contains_false. intros H Hc Hin. specialize (H _ Hin). congruence.
Qed.

Lemma sfilter_all p s : all_bytes p s = true -> sfilter p s = s.
Proof.
  induction s as [|a s IH]; [done|]. cbn. rewrite andb_true_iff. intros [-> H].
  f_equal. auto.
Qed.
Lemma sfilter_app p s t : sfilter p (s +:+ t) = sfilter p s +:+ sfilter p t.
Proof.
  induction s as [|a s IH]; [done|]. rewrite app_cons_s. cbn. destruct (p a); rewrite IH; done.
Qed.

Lemma flat_map_bytes_app f s t :
  flat_map_bytes f (s +:+ t) = flat_map_bytes f s +:+ flat_map_bytes f t.
Proof.
  induction s as [|a s IH]; [done|]. rewrite app_cons_s. cbn. rewrite IH.
  by rewrite app_assoc_s.
Qed.
Lemma all_bytes_flat_map p f s :
  (forall a, all_bytes p (f a) = true) -> all_bytes p (flat_map_bytes f s) = true.
Proof.
  intros H. induction s as [|a s IH]; [done|]. cbn. rewrite all_bytes_app, H, IH. done.
Qed.

(** ** split and join *)

Lemma split_nonnil c s : split c s <> [].
Proof. destruct s as [|a s]; cbn; [done|]. destruct (Ascii.eqb a c), (split c s); done. Qed.

Lemma split_not_in c s : contains c s = false -> split c s = [s].
Proof.
  induction s as [|a s IH]; [done|]. cbn. destruct (Ascii.eqb a c); [discriminate|].
  cbn. intros H. rewrite IH by done. done.
Qed.

Lemma split_app c s t : contains c s = false ->
  split c (s +:+ String c t) = s :: split c t.
Proof.
  induction s as [|a s IH]; cbn; intros H.
  - rewrite app_nil_s. cbn. by rewrite Ascii.eqb_refl.
  - rewrite app_cons_s. cbn. destruct (Ascii.eqb a c); [discriminate|]. cbn in H.
    by rewrite IH.
Qed.

Lemma split_contains c s x : In x (split c s) -> contains c x = false.
Proof.
  revert x. induction s as [|a s IH]; cbn.
  - intros x [<-|[]]. done.
  - intros x. destruct (Ascii.eqb a c) eqn:E.
    + intros [<-|H]; [done|auto].
    + destruct (split c s) as [|h t] eqn:Es.
      * intros [<-|[]]. cbn. by rewrite E.
      * intros [<-|H]; [|apply IH; cbn; auto].
        cbn. rewrite E. cbn. apply IH. cbn. auto.
Qed.

Lemma join_cons sep x y l : join sep (x :: y :: l) = x +:+ sep +:+ join sep (y :: l).
Proof. reflexivity. Qed.
Lemma join_one sep x : join sep [x] = x.
Proof. reflexivity. Qed.

Lemma join_split c s : join (str1 c) (split c s) = s.
Proof.
  induction s as [|a s IH]; [done|]. cbn. destruct (Ascii.eqb_spec a c) as [->|Hne].
  - destruct (split c s) as [|h t] eqn:E; [by apply split_nonnil in E|].
    rewrite join_cons, IH. done.
  - destruct (split c s) as [|h t] eqn:E; [by apply split_nonnil in E|].
    destruct t as [|h' t].
    + rewrite join_one in *. congruence.
    + rewrite join_cons in *. rewrite app_cons_s. congruence.
Qed.

Lemma split_join c l : l <> [] -> Forall (fun x => contains c x = false) l ->
  split c (join (str1 c) l) = l.
Proof.
  induction l as [|x l IH]; [done|]. intros _ HF. inversion HF as [|? ? Hx HF']; subst.
  destruct l as [|y l].
  - rewrite join_one. by apply split_not_in.
  - rewrite join_cons. change (str1 c +:+ join (str1 c) (y :: l)) with
      (String c (join (str1 c) (y :: l))).
    rewrite split_app by done. rewrite IH by done. done.
Qed.

(** ** cut and last_cut *)

Lemma cut_app c s t : contains c s = false -> cut c (s +:+ String c t) = Some (s, t).
Proof.
  induction s as [|a s IH]; cbn; intros H.
  - rewrite app_nil_s. cbn. by rewrite Ascii.eqb_refl.
  - rewrite app_cons_s. cbn. destruct (Ascii.eqb a c); [discriminate|]. cbn in H.
    by rewrite IH.
Qed.
Lemma cut_some c s x y : cut c s = Some (x, y) <-> s = x +:+ String c y /\ contains c x = false.
Proof.
  split.
  - revert x y. induction s as [|a s IH]; cbn; [discriminate|]. intros x y.
    destruct (Ascii.eqb_spec a c) as [->|Hne].
    + intros [= <- <-]. done.
    + destruct (cut c s) as [[x' y']|]; [|discriminate]. intros [= <- <-].
      destruct (IH _ _ eq_refl) as [-> H]. split; [done|]. cbn. rewrite H.
      by rewrite (proj2 (Ascii.eqb_neq _ _) Hne).
  - intros [-> H]. by apply cut_app.
Qed.
Lemma cut_none c s : cut c s = None <-> contains c s = false.
Proof.
  induction s as [|a s IH]; cbn; [done|]. destruct (Ascii.eqb a c); cbn; [split; discriminate|].
  rewrite <- IH. destruct (cut c s) as [[]|]; split; congruence.
Qed.
Lemma last_cut_some c s x y :
  last_cut c s = Some (x, y) <-> s = x +:+ String c y /\ contains c y = false.
Proof.
  assert (Hnone : forall s, last_cut c s = None <-> contains c s = false).
  { clear. induction s as [|a s IH]; cbn; [done|].
    destruct (last_cut c s) as [[]|].
    - split; [discriminate|]. rewrite orb_false_iff. intros [_ H]. apply IH in H. discriminate.
    - rewrite (proj1 IH eq_refl). destruct (Ascii.eqb a c); cbn; split; congruence. }
  split.
  - revert x y. induction s as [|a s IH]; cbn; [discriminate|]. intros x y.
    destruct (last_cut c s) as [[x' y']|] eqn:E.
    + intros [= <- <-]. destruct (IH _ _ eq_refl) as [-> H]. done.
    + destruct (Ascii.eqb_spec a c) as [->|]; [|discriminate]. intros [= <- <-].
      split; [done|]. by apply Hnone.
  - intros [-> H]. induction x as [|a x IH].
    + rewrite app_nil_s. cbn. by rewrite (proj2 (Hnone y) H), Ascii.eqb_refl.
    + rewrite app_cons_s. cbn. by rewrite IH.
Qed.
Lemma last_cut_none c s : last_cut c s = None <-> contains c s = false.
Proof.
  split.
  - destruct (contains c s) eqn:E; [|done]. intros H. exfalso. revert E H.
    induction s as [|a s IH]; cbn; [discriminate|].
    destruct (last_cut c s) as [[]|] eqn:El; [discriminate|].
    destruct (Ascii.eqb a c); cbn; [discriminate|]. intros. by apply IH.
  - intros H. destruct (last_cut c s) as [[x y]|] eqn:E; [|done].
    apply last_cut_some in E as [-> _]. rewrite contains_app in H. cbn in H.
    rewrite Ascii.eqb_refl in H. cbn in H. by rewrite orb_true_r in H.
Qed.

(** ** Prefixes *)

Lemma strip_prefix_some p s r : strip_prefix p s = Some r <-> s = p +:+ r.
Proof.
  revert s. induction p as [|a p IH]; cbn; intros s.
  - rewrite app_nil_s. split; congruence.
  - destruct s as [|b s]; [rewrite app_cons_s; split; discriminate|].
    rewrite app_cons_s. destruct (Ascii.eqb_spec a b) as [->|Hne].
    + rewrite IH. split; [intros ->; done|congruence].
    + split; [discriminate|]. intros [= Hba _]. congruence.
Qed.
Lemma strip_prefix_app p r : strip_prefix p (p +:+ r) = Some r.
Proof. by apply strip_prefix_some. Qed.

Lemma take_drop_str n s x r : take_str n s = Some x -> drop_str n s = Some r ->
  s = x +:+ r /\ slen x = n.
Proof.
  revert s x. induction n as [|n IH]; intros s x; cbn.
  - destruct s; intros [= <-] [= <-]; done.
  - destruct s as [|a s]; [discriminate|]. destruct (take_str n s) eqn:E; [|discriminate].
    intros [= <-] H. destruct (IH _ _ E H) as [-> <-]. done.
Qed.
Lemma take_str_app x r : take_str (slen x) (x +:+ r) = Some x.
Proof. induction x as [|a x IH]; [cbn; by destruct r|]. rewrite app_cons_s. cbn. by rewrite IH. Qed.
Lemma drop_str_app x r : drop_str (slen x) (x +:+ r) = Some r.
Proof. induction x as [|a x IH]; [cbn; by destruct r|]. rewrite app_cons_s. cbn. done. Qed.
Lemma take_str_le n s : n <= slen s -> exists x r, take_str n s = Some x /\ drop_str n s = Some r
  /\ s = x +:+ r /\ slen x = n.
Proof.
  revert s. induction n as [|n IH]; intros s H.
  - exists "", s. by destruct s.
  - destruct s as [|a s]; cbn in H; [lia|]. destruct (IH s) as (x & r & H1 & H2 & -> & <-); [lia|].
    exists (String a x), r. cbn. rewrite H1. done.
Qed.
Lemma take_str_gt n s : slen s < n -> take_str n s = None /\ drop_str n s = None.
Proof.
  revert s. induction n as [|n IH]; intros s H; [lia|].
  destruct s as [|a s]; cbn in *; [done|]. destruct (IH s) as [H1 H2]; [lia|].
  by rewrite H1.
Qed.

(** ** Case mapping *)

Lemma to_lower_app s t : to_lower (s +:+ t) = to_lower s +:+ to_lower t.
Proof. induction s as [|a s IH]; [done|]. rewrite app_cons_s. cbn. unfold to_lower in IH. by rewrite IH. Qed.
Lemma slen_map_bytes f s : slen (map_bytes f s) = slen s.
Proof. induction s; cbn; congruence. Qed.
Lemma slen_to_lower s : slen (to_lower s) = slen s.
Proof. apply slen_map_bytes. Qed.

(** ** Sorting *)

Lemma str_le_refl s : str_le s s.
Proof. unfold str_le. induction s as [|a s IH]; cbn; [done|]. by rewrite N.ltb_irrefl. Qed.
Lemma str_leb_trans s t u : str_leb s t = true -> str_leb t u = true -> str_leb s u = true.
Proof.
  revert t u. induction s as [|a s IH]; [done|].
  intros [|b t]; [done|]. intros [|c u]; [done|]. cbn.
  destruct (N.ltb_spec (ord a) (ord b)), (N.ltb_spec (ord b) (ord c)),
    (N.ltb_spec (ord a) (ord c)), (N.ltb_spec (ord b) (ord a)),
    (N.ltb_spec (ord c) (ord b)), (N.ltb_spec (ord c) (ord a));
    try done; try lia; eauto.
Qed.
Lemma str_leb_antisym s t : str_leb s t = true -> str_leb t s = true -> s = t.
Proof.
  revert t. induction s as [|a s IH]; intros [|b t]; try done. cbn.
  destruct (N.ltb_spec (ord a) (ord b)), (N.ltb_spec (ord b) (ord a)); try done; try lia.
  intros H1 H2. f_equal; [|auto]. apply ord_inj. lia.
Qed.
Lemma str_leb_total s t : str_leb s t = true \/ str_leb t s = true.
Proof.
  revert t. induction s as [|a s IH]; intros [|b t]; cbn; auto.
  destruct (N.ltb_spec (ord a) (ord b)), (N.ltb_spec (ord b) (ord a)); auto.
Qed.
Global Instance str_le_total : Total str_le.
Proof. intros s t. apply str_leb_total. Qed.
Global Instance str_le_trans : Transitive str_le.
Proof. intros s t u. apply str_leb_trans. Qed.
Global Instance str_le_antisym : AntiSymm (=) str_le.
Proof. intros s t. apply str_leb_antisym. Qed.

Lemma sort_strings_perm l : sort_strings l ≡ₚ l.
Proof. apply merge_sort_Permutation. Qed.
Lemma sort_strings_ext l k : l ≡ₚ k -> sort_strings l = sort_strings k.
Proof.
  intros H. apply (Sorted_unique str_le).
  - apply Sorted_merge_sort, _.
  - apply Sorted_merge_sort, _.
  - by rewrite !sort_strings_perm.
Qed.
