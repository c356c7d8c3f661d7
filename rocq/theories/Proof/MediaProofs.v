(** The model of mime.ParseMediaType reads content types as Spec/MediaSpec.v says. *)
From Verif.Model Require Import Http.
From Verif.Spec Require Import ScopeSpec WireSpec MediaSpec.
From Verif.Proof Require Import StrFacts ScopeFacts WireFacts Redirect.
From Coq Require Import ZifyBool ZifyNat ZifyN.

#[local] Open Scope string_scope.

(** ** Bytes and tokens *)
Definition visible (c : ascii) : bool := (33 <=? ord c)%N && (ord c <=? 126)%N.
Lemma spaces_invisible : forallb (fun e => match e with String b _ => negb (visible b) | "" => false end)
  space_encodings = true.
Proof. vm_compute. reflexivity. Qed.
Lemma spaces_invisible_rev : forallb (fun e => match e with String b _ => negb (visible b) | "" => false end)
  (map srev space_encodings) = true.
Proof. vm_compute. reflexivity. Qed.
Lemma trim_visible encs a s : forallb (fun e => match e with String b _ => negb (visible b) | "" => false end) encs = true ->
  visible a = true -> trim_left_with encs (String a s) = String a s.
Proof.
  intros He Ha. apply trim_left_with_fix. intros e r Hin Heq. rewrite forallb_forall in He. specialize (He _ Hin).
  destruct e as [|b e]; [done|]. rewrite app_cons_s in Heq. injection Heq as <- _. by rewrite Ha in He.
Qed.
Lemma trim_left_visible a s : visible a = true -> trim_left (String a s) = String a s.
Proof. apply trim_visible, spaces_invisible. Qed.
Lemma trim_left_nil : trim_left "" = "".
Proof. reflexivity. Qed.
Lemma all_bytes_srev p s : all_bytes p (srev s) = all_bytes p s.
Proof.
  unfold srev. assert (H : forall acc, all_bytes p (srev_app s acc) = all_bytes p s && all_bytes p acc).
  { induction s as [|a s IH]; intros acc; [done|]. cbn [srev_app all_bytes]. rewrite IH. cbn [all_bytes].
    destruct (p a), (all_bytes p s); done. }
  rewrite H. cbn [all_bytes]. by rewrite andb_true_r.
Qed.
Lemma trim_right_visible s : all_bytes visible s = true -> trim_right s = s.
Proof.
  intros H. unfold trim_right. rewrite <- all_bytes_srev in H. rewrite <- (srev_srev s) at 2. f_equal.
  destruct (srev s) as [|a t]; [reflexivity|]. cbn [all_bytes] in H. apply andb_true_iff in H as [Ha _].
  apply trim_visible; [apply spaces_invisible_rev|done].
Qed.
Lemma trim_space_visible s : all_bytes visible s = true -> trim_space s = s.
Proof.
  intros H. unfold trim_space. replace (trim_left s) with s; [by apply trim_right_visible|].
  destruct s as [|a s]; [done|]. cbn [all_bytes] in H. apply andb_true_iff in H as [Ha _]. by rewrite trim_left_visible.
Qed.

Lemma lower_media_ascii s : all_bytes visible s = true -> lower_media s = to_lower s.
Proof.
  unfold to_lower. induction s as [|a s IH]; [done|]. cbn [all_bytes]. rewrite andb_true_iff. intros [Ha Hs].
  specialize (IH Hs). cbn [lower_media map_bytes].
  assert (E1 : (ord a =? 196)%N = false).
  { unfold visible in Ha. apply andb_true_iff in Ha as [_ Ha]. apply N.leb_le in Ha. apply N.eqb_neq. lia. }
  assert (E2 : (ord a =? 226)%N = false).
  { unfold visible in Ha. apply andb_true_iff in Ha as [_ Ha]. apply N.leb_le in Ha. apply N.eqb_neq. lia. }
  rewrite E1, E2. cbn [andb]. rewrite <- IH. destruct s as [|b [|c s]]; reflexivity.
Qed.

Lemma token_byte_char c : token_byte c <-> is_token_char c = true.
Proof.
  unfold token_byte, is_token_char, is_tspecial, is_one_of, ord.
  rewrite !andb_true_iff, negb_true_iff, orb_false_iff, !N.ltb_lt.
  assert (Hc : contains c "()<>@,;:\/[]?=" = false <-> ~ In c (list_ascii_of_string "()<>@,;:\/[]?=")).
  { rewrite <- without_contains. done. }
  rewrite Hc. unfold dquote. rewrite Ascii.eqb_neq. split; [intros ([? ?] & ? & ?)|intros ([? ?] & ? & ?)]; repeat split; try done; lia.
Qed.
Lemma mime_token_all s : mime_token s <-> s <> "" /\ all_bytes is_token_char s = true.
Proof.
  unfold mime_token. enough (H : (forall c, In c (list_ascii_of_string s) -> token_byte c) <-> all_bytes is_token_char s = true)
    by (by rewrite H).
  induction s as [|a s IH]; [done|]. cbn [list_ascii_of_string all_bytes]. rewrite andb_true_iff, <- IH, <- token_byte_char.
  split; [intros H; split; [apply H; by left|intros c Hc; apply H; by right]|intros [Ha H] c [<-|Hc]; [done|by apply H]].
Qed.
Lemma token_visible s : all_bytes is_token_char s = true -> all_bytes visible s = true.
Proof.
  apply all_bytes_impl. intros a H.
  assert (HH : negb (is_token_char a) || visible a = true) by (clear H; revert a; apply ascii_forall; vm_compute; reflexivity).
  by rewrite H in HH.
Qed.
Lemma token_lower s : all_bytes is_token_char s = true -> all_bytes is_token_char (to_lower s) = true.
Proof.
  unfold to_lower. induction s as [|a s IH]; [done|]. cbn [all_bytes map_bytes]. rewrite !andb_true_iff. intros [Ha Hs].
  split; [|by apply IH].
  assert (HH : negb (is_token_char a) || is_token_char (lower_byte a) = true) by (clear Ha; revert a; apply ascii_forall; vm_compute; reflexivity).
  by rewrite Ha in HH.
Qed.
Lemma consume_token_app s c r : all_bytes is_token_char s = true -> is_token_char c = false ->
  consume_token (s +:+ String c r) = (s, String c r).
Proof.
  intros Hs Hc. induction s as [|a s IH].
  - rewrite app_nil_s. cbn [consume_token]. by rewrite Hc.
  - cbn [all_bytes] in Hs. apply andb_true_iff in Hs as [Ha Hs]. rewrite app_cons_s. cbn [consume_token].
    by rewrite Ha, (IH Hs).
Qed.
Lemma consume_token_all s : all_bytes is_token_char s = true -> consume_token s = (s, "").
Proof.
  induction s as [|a s IH]; [done|]. cbn [all_bytes]. rewrite andb_true_iff. intros [Ha Hs]. cbn [consume_token].
  by rewrite Ha, (IH Hs).
Qed.

(** ** White space *)
Definition apart (l : list string) : bool :=
  forallb (fun e => forallb (fun f => seqb e f ||
    (match strip_prefix e f with None => true | _ => false end && match strip_prefix f e with None => true | _ => false end)) l) l.
Lemma spaces_apart : apart space_encodings = true.
Proof. vm_compute. reflexivity. Qed.
Lemma spaces_apart_rev : apart (map srev space_encodings) = true.
Proof. vm_compute. reflexivity. Qed.
Lemma app_prefix e f x y : e +:+ x = f +:+ y -> (exists r, f = e +:+ r) \/ (exists r, e = f +:+ r).
Proof.
  revert f. induction e as [|a e IH]; intros f H; [left; by exists f|]. destruct f as [|b f]; [right; by exists (String a e)|].
  rewrite !app_cons_s in H. injection H as <- H. destruct (IH _ H) as [(r & ->)|(r & ->)]; [left|right]; exists r; by rewrite app_cons_s.
Qed.
Lemma app_inv_s e x y : e +:+ x = e +:+ y -> x = y.
Proof. induction e as [|a e IH]; [done|]. rewrite !app_cons_s. intros [= H]. by apply IH. Qed.
Lemma apart_unique encs l l' x y : apart encs = true ->
  Forall (fun e => In e encs) l -> Forall (fun e => In e encs) l' ->
  (forall e r, In e encs -> x <> e +:+ r) -> (forall e r, In e encs -> y <> e +:+ r) ->
  concat_all l +:+ x = concat_all l' +:+ y -> x = y.
Proof.
  intros Ha Hl. revert l'. induction Hl as [|e l He Hl IH]; intros l' Hl' Hx Hy E.
  - destruct Hl' as [|f l' Hf Hl']; [done|]. change (concat_all []) with "" in E. rewrite app_nil_s in E.
    change (concat_all (f :: l')) with (f +:+ concat_all l') in E. rewrite app_assoc_s in E. by destruct (Hx _ _ Hf E).
  - change (concat_all (e :: l)) with (e +:+ concat_all l) in E. rewrite app_assoc_s in E.
    destruct Hl' as [|f l' Hf Hl'].
    + change (concat_all []) with "" in E. rewrite app_nil_s in E. symmetry in E. by destruct (Hy _ _ He E).
    + change (concat_all (f :: l')) with (f +:+ concat_all l') in E. rewrite app_assoc_s in E.
      assert (e = f) as ->.
      { unfold apart in Ha. rewrite forallb_forall in Ha. specialize (Ha _ He). rewrite forallb_forall in Ha. specialize (Ha _ Hf).
        apply orb_true_iff in Ha as [Ha|Ha]; [by apply seqb_true|].
        destruct (app_prefix _ _ _ _ E) as [(r & ->)|(r & ->)]; rewrite strip_prefix_app in Ha; [done|]. by rewrite andb_false_r in Ha. }
      apply app_inv_s in E. by apply (IH l').
Qed.
Lemma white_list w : only_white w <-> exists l, Forall (fun e => In e space_encodings) l /\ w = concat_all l.
Proof.
  split.
  - intros (cps & Hc & ->). exists (map utf8 cps). split; [|done]. apply Forall_map. eapply Forall_impl; [exact Hc|].
    intros n Hn. apply space_encodings_spec. by exists n.
  - intros (l & Hl & ->). by apply only_white_concat.
Qed.
Lemma starts_white_enc x : ~ starts_white x <-> forall e r, In e space_encodings -> x <> e +:+ r.
Proof.
  split.
  - intros H e r He ->. apply H. apply space_encodings_spec in He as (n & Hn & ->). by exists n, r.
  - intros H (n & r & Hn & ->). eapply H; [|done]. apply space_encodings_spec. by exists n.
Qed.
Lemma visible_not_white a s : visible a = true -> ~ starts_white (String a s).
Proof.
  intros Ha (n & r & Hn & E). pose proof spaces_invisible as Hs. rewrite forallb_forall in Hs.
  assert (Hin : In (utf8 n) space_encodings) by (apply space_encodings_spec; by exists n). specialize (Hs _ Hin).
  destruct (utf8 n) as [|b e]; [done|]. rewrite app_cons_s in E. injection E as <- _. by rewrite Ha in Hs.
Qed.
Lemma trim_white w x : only_white w -> ~ starts_white x -> trim_left (w +:+ x) = x.
Proof.
  intros Hw Hx. destruct (trim_left_spec (w +:+ x)) as (p & Hp & E & Hn).
  apply white_list in Hw as (l & Hl & ->), Hp as (l' & Hl' & ->). symmetry in E.
  eapply apart_unique; [exact spaces_apart|exact Hl'|exact Hl|by apply starts_white_enc|by apply starts_white_enc|exact E].
Qed.
Lemma trim_white_nil w : only_white w -> trim_left w = "".
Proof.
  intros Hw. rewrite <- (app_nil_r_s w). apply trim_white; [done|]. intros (n & r & Hn & E). symmetry in E. apply app_eq_nil in E as [E _].
  assert (Hin : In (utf8 n) space_encodings) by (apply space_encodings_spec; by exists n). by apply space_encodings_nonempty in Hin.
Qed.
Lemma trim_nil_white w : trim_left w = "" -> only_white w.
Proof. intros H. destruct (trim_left_spec w) as (p & Hp & E & _). rewrite H, app_nil_r_s in E. by subst. Qed.
Lemma trim_right_white t w : only_white w -> (forall b s, srev t = String b s -> visible b = true) -> trim_right (t +:+ w) = t.
Proof.
  intros Hw Ht. destruct (trim_right_spec (t +:+ w)) as (q & Hq & E & Hn). set (r := trim_right (t +:+ w)) in *.
  apply white_list in Hw as (l & Hl & ->), Hq as (l' & Hl' & ->).
  apply (f_equal srev) in E. rewrite !srev_app_rev, !concat_all_rev in E.
  assert (Hrev : forall k, Forall (fun e => In e space_encodings) k -> Forall (fun e => In e (map srev space_encodings)) (rev (map srev k))).
  { intros k Hk. apply Forall_rev, Forall_map. eapply Forall_impl; [exact Hk|]. intros e He. by apply in_map. }
  assert (H : srev t = srev r).
  { eapply apart_unique; [exact spaces_apart_rev|exact (Hrev _ Hl)|exact (Hrev _ Hl')| | |exact E].
    - intros e x He Ex. pose proof spaces_invisible_rev as Hs. rewrite forallb_forall in Hs. specialize (Hs _ He).
      destruct e as [|b e]; [done|]. rewrite app_cons_s in Ex. specialize (Ht _ _ Ex). by rewrite Ht in Hs.
    - intros e x He Ex. apply Hn. apply in_map_iff in He as (e' & <- & He). apply space_encodings_spec in He as (n & Hn' & ->).
      exists n, (srev x). split; [done|]. rewrite <- (srev_srev r), Ex, srev_app_rev, srev_srev. done. }
  by rewrite <- (srev_srev t), H, srev_srev.
Qed.
Lemma trim_space_white w1 t w2 : only_white w1 -> only_white w2 -> t <> "" -> all_bytes visible t = true ->
  trim_space (w1 +:+ t +:+ w2) = t.
Proof.
  intros H1 H2 Hne Ht. unfold trim_space. destruct t as [|a t]; [done|]. rewrite app_cons_s.
  rewrite trim_white; [|done|]. 2:{ cbn [all_bytes] in Ht. apply andb_true_iff in Ht as [Ha _]. by apply visible_not_white. }
  rewrite <- app_cons_s. apply trim_right_white; [done|]. intros b s E. rewrite <- all_bytes_srev, E in Ht. cbn [all_bytes] in Ht.
  by apply andb_true_iff in Ht as [? _].
Qed.

(** ** Small letters *)
Lemma lower_step a r :
  (ord a = 196 -> forall b s, r = String b s -> ord b <> 176)%N ->
  (ord a = 226 -> forall b s, r = String b s -> ord b <> 132)%N ->
  lower_media (String a r) = String (lower_byte a) (lower_media r).
Proof.
  intros H1 H2. destruct r as [|b r]; [done|]. cbn [lower_media].
  destruct (N.eqb_spec (ord a) 196) as [E1|E1]; cbn [andb].
  - destruct (N.eqb_spec (ord b) 176) as [E|E]; [by destruct (H1 E1 b r)|]. destruct (N.eqb_spec (ord a) 226) as [E2|E2]; [lia|].
    cbn [andb]. destruct r; reflexivity.
  - destruct (N.eqb_spec (ord a) 226) as [E2|E2]; cbn [andb].
    + destruct (N.eqb_spec (ord b) 132) as [E|E]; [by destruct (H2 E2 b r)|]. cbn [andb]. destruct r; reflexivity.
    + destruct r; reflexivity.
Qed.
Inductive loose : string -> string -> Prop :=
| loose_end : loose "" ""
| loose_byte a s t : loose s t -> loose (String a s) (String (lower_byte a) t)
| loose_dotted s t : loose s t -> loose (utf8 0x130 +:+ s) (String "i" t)
| loose_kelvin s t : loose s t -> loose (utf8 0x212A +:+ s) (String "k" t).
Lemma lower_loose s : loose s (lower_media s).
Proof.
  assert (Hord : forall c n, ord c = n -> c = ascii_of_N n) by (intros c n <-; unfold ord; by rewrite ascii_N_embedding).
  enough (H : forall n s, (slen s <= n)%nat -> loose s (lower_media s)) by (by eapply H).
  clear s. induction n as [|n IH]; intros s Hs; [destruct s; [constructor|cbn in Hs; lia]|].
  destruct s as [|a r]; [constructor|]. cbn [String.length] in Hs.
  destruct r as [|b r1]; [apply loose_byte; constructor|]. cbn [lower_media]. cbn [String.length] in Hs.
  destruct (_ && _) eqn:E1.
  - apply andb_true_iff in E1 as [E1 E2]. apply N.eqb_eq in E1, E2. apply Hord in E1, E2. subst a b.
    apply (loose_dotted r1). apply IH. lia.
  - clear E1. destruct r1 as [|c r2].
    + apply loose_byte. apply (IH (String b "")). cbn. lia.
    + destruct (_ && _ && _) eqn:E1.
      * apply andb_true_iff in E1 as [E1 E3]. apply andb_true_iff in E1 as [E1 E2]. apply N.eqb_eq in E1, E2, E3. apply Hord in E1, E2, E3. subst a b c.
        apply (loose_kelvin r2). apply IH. cbn [String.length] in Hs. lia.
      * apply loose_byte. apply (IH (String b (String c r2))). cbn [String.length] in *. lia.
Qed.
Lemma loose_split x y : forall s, loose s (x +:+ y) -> exists s1 s2, s = s1 +:+ s2 /\ loose s1 x /\ loose s2 y.
Proof.
  induction x as [|c x IH]; intros s H.
  - exists "", s. split; [done|]. split; [constructor|done].
  - rewrite app_cons_s in H. inversion H as [|a s0 t H0 E1 E2|s0 t H0 E1 E2|s0 t H0 E1 E2]; subst;
      destruct (IH _ H0) as (s1 & s2 & -> & H1 & H2).
    + exists (String a s1), s2. split; [by rewrite app_cons_s|]. split; [by constructor|done].
    + exists (utf8 304 +:+ s1), s2. split; [by rewrite app_assoc_s|]. split; [by constructor|done].
    + exists (utf8 8490 +:+ s1), s2. split; [by rewrite app_assoc_s|]. split; [by constructor|done].
Qed.
Definition no_small (c : ascii) : bool := negb ((97 <=? ord c)%N && (ord c <=? 122)%N).
Lemma no_small_white w : only_white w -> all_bytes no_small w = true.
Proof.
  intros Hw. apply white_list in Hw as (l & Hl & ->). induction Hl as [|e l He Hl IH]; [done|].
  change (concat_all (e :: l)) with (e +:+ concat_all l). rewrite all_bytes_app, IH, andb_true_r.
  assert (H : forallb (all_bytes no_small) space_encodings = true) by (vm_compute; reflexivity).
  rewrite forallb_forall in H. by apply H.
Qed.
Lemma loose_white s w : loose s w -> all_bytes no_small w = true -> s = w.
Proof.
  induction 1 as [|a s t H IH|s t H IH|s t H IH]; [done| | |]; cbn [all_bytes]; rewrite andb_true_iff; intros [Ha Ht]; try discriminate Ha.
  rewrite (IH Ht). f_equal.
  assert (HH : negb (no_small (lower_byte a)) || Ascii.eqb a (lower_byte a) = true)
    by (clear Ha; revert a; apply ascii_forall; vm_compute; reflexivity).
  rewrite Ha in HH. by apply Ascii.eqb_eq in HH.
Qed.
Lemma lower_letter a c : same_letter a c /\ ~ capital c <-> c = lower_byte a.
Proof.
  rewrite same_letter_lower. split.
  - intros [E Hc]. unfold capital in Hc. rewrite E.
    assert (HH : ((65 <=? ord c) && (ord c <=? 90))%N || Ascii.eqb c (lower_byte c) = true)
      by (clear; revert c; apply ascii_forall; vm_compute; reflexivity).
    apply orb_true_iff in HH as [HH|HH]; [|by apply Ascii.eqb_eq in HH]. exfalso. apply Hc. unfold ord in HH. lia.
  - intros ->. split.
    + assert (HH : Ascii.eqb (lower_byte a) (lower_byte (lower_byte a)) = true) by (revert a; apply ascii_forall; vm_compute; reflexivity).
      by apply Ascii.eqb_eq in HH.
    + unfold capital. assert (HH : ((65 <=? ord (lower_byte a)) && (ord (lower_byte a) <=? 90))%N = false).
      { apply negb_true_iff. revert a; apply ascii_forall; vm_compute; reflexivity. }
      unfold ord in HH. lia.
Qed.
Lemma loose_spelt s t : loose s t <-> spelt s t.
Proof.
  split.
  - induction 1 as [|a s t H IH|s t H IH|s t H IH]; [constructor| |by constructor|by constructor].
    destruct (proj2 (lower_letter a (lower_byte a)) eq_refl) as [H1 H2]. by constructor.
  - induction 1 as [|a c s t H1 H2 H IH|s t H IH|s t H IH]; [constructor| |by constructor|by constructor].
    rewrite (proj1 (lower_letter a c) (conj H1 H2)). by constructor.
Qed.
Lemma lower_white w x : only_white w -> lower_media (w +:+ x) = w +:+ lower_media x.
Proof.
  intros Hw. apply white_list in Hw as (l & Hl & ->). induction Hl as [|e l He Hl IH]; [done|].
  change (concat_all (e :: l)) with (e +:+ concat_all l). rewrite !app_assoc_s, <- IH. generalize (concat_all l +:+ x). intros y.
  vm_compute in He. repeat (destruct He as [<-|He]); [..|destruct He].
  all: rewrite ?app_cons_s, ?app_nil_s.
  all: repeat (rewrite lower_step; [|intros H; vm_compute in H; discriminate H
    |first [intros H; vm_compute in H; discriminate H|intros _ b s [= <- <-]; vm_compute; discriminate]]).
  all: reflexivity.
Qed.
Lemma lower_spelt b t x : spelt b t -> all_bytes visible t = true -> lower_media (b +:+ x) = t +:+ lower_media x.
Proof.
  induction 1 as [|a c s t H1 H2 H IH|s t H IH|s t H IH]; cbn [all_bytes]; rewrite ?andb_true_iff; [done|..]; intros [Hc Ht]; specialize (IH Ht).
  - pose proof (proj1 (lower_letter a c) (conj H1 H2)) as ->.
    assert (HH : negb (visible (lower_byte a)) || (ord a <? 127)%N = true) by (clear; revert a; apply ascii_forall; vm_compute; reflexivity).
    rewrite Hc in HH. cbn [negb orb] in HH. apply N.ltb_lt in HH.
    rewrite app_cons_s, lower_step by lia. by rewrite IH, app_cons_s.
  - rewrite app_assoc_s, app_cons_s, <- IH. reflexivity.
  - rewrite app_assoc_s, app_cons_s, <- IH. reflexivity.
Qed.
Lemma token_head s : s <> "" -> all_bytes is_token_char s = true -> exists a r, s = String a r /\ visible a = true /\ a <> dquote.
Proof.
  intros Hne H. destruct s as [|a r]; [done|]. exists a, r. split; [done|].
  cbn [all_bytes] in H. apply andb_true_iff in H as [Ha _].
  assert (HH : negb (is_token_char a) || (visible a && negb (Ascii.eqb a dquote)) = true)
    by (clear Ha Hne; revert a; apply ascii_forall; vm_compute; reflexivity).
  rewrite Ha in HH. apply andb_true_iff in HH as [H1 H2]. split; [done|]. by apply negb_true_iff, Ascii.eqb_neq in H2.
Qed.

(** ** The type *)
Lemma consume_token_spec v t r : consume_token v = (t, r) <->
  v = t +:+ r /\ all_bytes is_token_char t = true /\ (forall c s, r = String c s -> is_token_char c = false).
Proof.
  split.
  - revert t r. induction v as [|a v IH]; intros t r; cbn [consume_token]; [by intros [= <- <-]|].
    destruct (is_token_char a) eqn:Ea.
    + destruct (consume_token v) as [t' r'] eqn:E. intros [= <- <-]. destruct (IH _ _ eq_refl) as (-> & H1 & H2).
      split; [done|]. split; [|done]. cbn [all_bytes]. by rewrite Ea.
    + intros [= <- <-]. split; [done|]. split; [done|]. by intros c s [= <- <-].
  - intros (-> & Ht & Hr). destruct r as [|c s]; [rewrite app_nil_r_s; by apply consume_token_all|]. apply consume_token_app; [done|by eapply Hr].
Qed.
Lemma media_type_spec t : media_type_ok t = true <-> type_name t.
Proof.
  unfold media_type_ok, type_name. split.
  - destruct (consume_token t) as [m r] eqn:E. apply consume_token_spec in E as (-> & Hm & Hr).
    destruct (seqb m "") eqn:Em; [done|]. apply seqb_false in Em. destruct (seqb r "") eqn:Er.
    + apply seqb_true in Er as ->. rewrite app_nil_r_s. intros _. left. by apply mime_token_all.
    + destruct (strip_prefix "/" r) as [r'|] eqn:Es; [|done]. apply strip_prefix_some in Es as ->.
      destruct (consume_token r') as [sub rest] eqn:E. apply consume_token_spec in E as (-> & Hs & _).
      rewrite andb_true_iff, negb_true_iff. intros [H1 H2]. apply seqb_false in H1. apply seqb_true in H2 as ->. rewrite app_nil_r_s.
      right. exists m, sub. split; [by apply mime_token_all|]. split; [by apply mime_token_all|done].
  - intros [H|(m & s & Hm & Hs & ->)].
    + apply mime_token_all in H as [H1 H2]. rewrite (consume_token_all _ H2). apply seqb_false in H1. by rewrite H1.
    + apply mime_token_all in Hm as [H1 H2], Hs as [H3 H4]. apply seqb_false in H1, H3.
      change ("/" +:+ s) with (String "/" s). rewrite (consume_token_app _ "/" s H2 eq_refl), H1.
      change (seqb (String "/" s) "") with false. change (strip_prefix "/" (String "/" s)) with (Some s). cbv iota.
      rewrite (consume_token_all _ H4), H3. reflexivity.
Qed.
Lemma type_name_visible t : type_name t -> t <> "" /\ all_bytes visible t = true.
Proof.
  intros [H|(m & s & Hm & Hs & ->)].
  - apply mime_token_all in H as [H1 H2]. split; [done|by apply token_visible].
  - apply mime_token_all in Hm as [H1 H2], Hs as [H3 H4]. split.
    + intros E. apply app_eq_nil in E as [_ E]. discriminate E.
    + rewrite !all_bytes_app, (token_visible _ H2), (token_visible _ H4). reflexivity.
Qed.
Lemma head_spec head t : trim_space (lower_media head) = t /\ media_type_ok t = true <->
  exists w1 b w2, only_white w1 /\ only_white w2 /\ type_name t /\ spelt b t /\ head = w1 +:+ b +:+ w2.
Proof.
  rewrite media_type_spec. split.
  - intros [E Ht]. destruct (trim_space_spec (lower_media head)) as (p & q & Hp & Hq & El & _ & _). rewrite E in El.
    pose proof (lower_loose head) as Hl. rewrite El in Hl. apply loose_split in Hl as (s1 & s2 & -> & H1 & H2).
    apply loose_split in H2 as (b & s3 & -> & H2 & H3). apply loose_white in H1 as ->; [|by apply no_small_white].
    apply loose_white in H3 as ->; [|by apply no_small_white]. apply loose_spelt in H2. by exists p, b, q.
  - intros (w1 & b & w2 & H1 & H2 & Ht & Hb & ->). split; [|done]. destruct (type_name_visible _ Ht) as [Hne Hv].
    rewrite lower_white, (lower_spelt _ _ _ Hb Hv) by done. replace (lower_media w2) with w2; [by apply trim_space_white|].
    rewrite <- (app_nil_r_s w2) at 2. rewrite lower_white by done. by rewrite app_nil_r_s.
Qed.

(** ** Parameters *)
Lemma special_spec c : special c <-> is_tspecial c = true.
Proof.
  unfold special, is_tspecial, is_one_of. rewrite orb_true_iff. unfold dquote. rewrite Ascii.eqb_eq.
  assert (Hc : contains c "()<>@,;:\/[]?=" = false <-> ~ In c (list_ascii_of_string "()<>@,;:\/[]?=")) by (rewrite <- without_contains; done).
  split; (intros [H|H]; [left|by right]).
  - destruct (contains _ _); [done|]. by apply Hc in H.
  - destruct (in_dec ascii_dec c (list_ascii_of_string "()<>@,;:\/[]?=")) as [Hd|Hd]; [done|]. apply Hc in Hd. by rewrite Hd in H.
Qed.
Lemma consume_quoted_inside v x rest : consume_quoted v = Some (x, rest) -> exists s, inside_quotes s /\ v = s +:+ String "034" rest.
Proof.
  enough (H : forall n v x, (slen v <= n)%nat -> consume_quoted v = Some (x, rest) -> exists s, inside_quotes s /\ v = s +:+ String "034" rest)
    by (by eapply H).
  clear. induction n as [|n IH]; intros v x Hn; [destruct v; [done|cbn in Hn; lia]|].
  destruct v as [|a r]; [done|]. cbn [consume_quoted]. cbn [String.length] in Hn.
  destruct (Ascii.eqb a dquote) eqn:Eq; [apply Ascii.eqb_eq in Eq as ->; intros [= <- <-]; exists ""; split; [constructor|done]|].
  apply Ascii.eqb_neq in Eq.
  set (plain := if Ascii.eqb a "013" || Ascii.eqb a "010" then None else _).
  assert (Hplain : plain = Some (x, rest) -> exists s, inside_quotes s /\ r = s +:+ String "034" rest /\ a <> "013"%char /\ a <> "010"%char).
  { unfold plain. destruct (_ || _) eqn:El; [done|]. apply orb_false_iff in El as [E1 E2]. apply Ascii.eqb_neq in E1, E2.
    destruct (consume_quoted r) as [[y rest']|] eqn:E; [|done]. intros [= <- <-]. apply IH in E as (s & Hs & Hr); [|lia].
    by exists s. }
  destruct (Ascii.eqb a "\") eqn:Eb.
  - apply Ascii.eqb_eq in Eb. destruct r as [|b r1].
    + intros H. apply Hplain in H as (s & _ & H & _). destruct s; discriminate H.
    + destruct (is_tspecial b) eqn:Es.
      * destruct (consume_quoted r1) as [[y rest']|] eqn:E; [|done]. intros [= <- <-]. apply IH in E as (s & Hs & ->); [|cbn in Hn; lia].
        exists (String "092" (String b s)). split; [|by rewrite Eb]. apply inside_escape; [by apply special_spec|done].
      * intros H. apply Hplain in H as (s & Hs & E & _ & _). destruct s as [|b' s].
        -- rewrite app_nil_s in E. injection E as -> _. discriminate Es.
        -- rewrite app_cons_s in E. injection E as <- ->. exists (String "092" (String b s)). split; [|by rewrite Eb].
           apply inside_backslash; [|done]. rewrite special_spec. by rewrite Es.
  - apply Ascii.eqb_neq in Eb. intros H. apply Hplain in H as (s & Hs & -> & H1 & H2). exists (String a s). split; [|done].
    apply inside_plain; [|done]. intros [<-|[<-|[<-|[<-|[]]]]]; [by apply Eq|by apply Eb|by apply H1|by apply H2].
Qed.
Lemma inside_consume s rest : inside_quotes s -> exists x, consume_quoted (s +:+ String "034" rest) = Some (x, rest).
Proof.
  induction 1 as [|c s Hc Hs (x & IH)|c s Hc Hs (x & IH)|c s Hc Hs (x & IH)].
  - exists "". reflexivity.
  - exists (String c x). rewrite app_cons_s. cbn [consume_quoted]. rewrite IH.
    assert (HH : forall d, In d ["034"; "092"; "013"; "010"]%char -> Ascii.eqb c d = false).
    { intros d Hd. apply Ascii.eqb_neq. by intros ->. }
    rewrite (HH dquote), (HH "\"%char), (HH "013"%char), (HH "010"%char); [done|cbn; tauto..].
  - exists (String c x). rewrite !app_cons_s. apply special_spec in Hc.
    transitivity (match consume_quoted (s +:+ String "034" rest) with Some (y, rest) => Some (String c y, rest) | None => None end).
    + cbn [consume_quoted]. rewrite Hc. reflexivity.
    + by rewrite IH.
  - exists (String "092" x). rewrite !app_cons_s. rewrite app_cons_s in IH.
    assert (Hn : is_tspecial c = false) by (destruct (is_tspecial c) eqn:E; [|done]; by apply special_spec in E).
    transitivity (match consume_quoted (String c (s +:+ String "034" rest)) with Some (y, rest) => Some (String "092" y, rest) | None => None end).
    + change (consume_quoted (String "092" (String c (s +:+ String "034" rest)))) with
        (if is_tspecial c then match consume_quoted (s +:+ String "034" rest) with Some (y, rest) => Some (String c y, rest) | None => None end
         else match consume_quoted (String c (s +:+ String "034" rest)) with Some (y, rest) => Some (String "092" y, rest) | None => None end).
      by rewrite Hn.
    + by rewrite IH.
Qed.

Lemma white_head w c s : only_white w -> w = String c s -> visible c = false.
Proof.
  intros Hw E. destruct (visible c) eqn:Hc; [|done]. exfalso. apply (visible_not_white _ s Hc). subst w.
  destruct Hw as ([|n cps] & Hn & E); [discriminate E|]. inversion Hn as [|? ? Hin _]; subst. exists n, (concat_all (map utf8 cps)). by split.
Qed.
Lemma visible_token c : visible c = false -> is_token_char c = false.
Proof.
  intros H. destruct (is_token_char c) eqn:E; [|done]. exfalso.
  assert (HH : negb (is_token_char c) || visible c = true) by (clear; revert c; apply ascii_forall; vm_compute; reflexivity).
  by rewrite E, H in HH.
Qed.
(** After white space and a character that is not of tokens. *)
Lemma after_white w d y : only_white w -> is_token_char d = false -> forall c s, w +:+ String d y = String c s -> is_token_char c = false.
Proof.
  intros Hw Hd c s E. destruct w as [|a w]; [rewrite app_nil_s in E; by injection E as <- _|].
  rewrite app_cons_s in E. injection E as <- _. apply visible_token. by eapply white_head.
Qed.
Lemma parameters_head earlier v : parameters earlier v -> forall c s, v = String c s -> is_token_char c = false.
Proof.
  intros H c s E. destruct H as [w Hw|w1 w2 H1 H2|w1 w2 w3 w4 name value rest H1].
  - apply visible_token. by eapply white_head.
  - by eapply (after_white w1 ";").
  - by eapply (after_white w1 ";").
Qed.
Lemma value_spec v rest : (exists x, consume_value v = Some (x, rest)) <->
  exists value, v = value +:+ rest /\
    ((mime_token value /\ forall c s, rest = String c s -> is_token_char c = false) \/ quoted value).
Proof.
  split.
  - intros (x & H). unfold consume_value in H. destruct v as [|a r]; [done|]. destruct (Ascii.eqb a dquote) eqn:Ea.
    + apply Ascii.eqb_eq in Ea as ->. apply consume_quoted_inside in H as (s & Hs & ->).
      exists (String "034" (s +:+ String "034" "")). split; [by rewrite app_cons_s, app_assoc_s, app_cons_s, app_nil_s|].
      right. by exists s.
    + destruct (consume_token (String a r)) as [t r'] eqn:E. destruct (seqb t "") eqn:Et; [done|]. injection H as <- <-.
      apply consume_token_spec in E as (E & Ht & Hr). exists t. split; [done|]. left. split; [|done]. apply mime_token_all. by apply seqb_false in Et.
  - intros (value & -> & [[Hv Hr]|(s & Hs & ->)]).
    + exists value. apply mime_token_all in Hv as [Hne Hv]. destruct (token_head _ Hne Hv) as (a & r & E & _ & Hq).
      unfold consume_value. rewrite E at 1. rewrite app_cons_s. apply Ascii.eqb_neq in Hq. rewrite Hq.
      rewrite (proj2 (consume_token_spec (value +:+ rest) value rest)) by done. apply seqb_false in Hne. by rewrite Hne.
    + destruct (inside_consume s rest Hs) as (x & Hx). exists x. rewrite app_cons_s, app_assoc_s, app_cons_s, app_nil_s. exact Hx.
Qed.
Lemma value_visible value : mime_token value \/ quoted value -> exists a s, value = String a s /\ visible a = true.
Proof.
  intros [H|(s & _ & ->)]; [|by eexists _, _].
  apply mime_token_all in H as [H1 H2]. destruct (token_head _ H1 H2) as (a & r & -> & Ha & _). by exists a, r.
Qed.
Lemma param_spec v k rest : (exists x, consume_media_param v = Some (k, x, rest)) <->
  exists w1 w2 w3 w4 name value, only_white w1 /\ only_white w2 /\ only_white w3 /\ only_white w4 /\ mime_token name /\
    ((mime_token value /\ forall c s, rest = String c s -> is_token_char c = false) \/ quoted value) /\
    k = to_lower name /\ v = w1 +:+ ";" +:+ w2 +:+ name +:+ w3 +:+ "=" +:+ w4 +:+ value +:+ rest.
Proof.
  unfold consume_media_param. split.
  - intros (x & H). destruct (trim_left_spec v) as (w1 & H1 & E1 & _).
    destruct (strip_prefix ";" (trim_left v)) as [r1|] eqn:Es; [|done]. apply strip_prefix_some in Es. rewrite Es in E1.
    destruct (trim_left_spec r1) as (w2 & H2 & E2 & _). destruct (consume_token (trim_left r1)) as [name r2] eqn:Et.
    apply consume_token_spec in Et as (Et & Hn & _). rewrite Et in E2. destruct (seqb name "") eqn:Ene; [done|]. apply seqb_false in Ene.
    destruct (trim_left_spec r2) as (w3 & H3 & E3 & _). destruct (strip_prefix "=" (trim_left r2)) as [r3|] eqn:Ee; [|done].
    apply strip_prefix_some in Ee. rewrite Ee in E3. destruct (trim_left_spec r3) as (w4 & H4 & E4 & _).
    destruct (consume_value (trim_left r3)) as [[y rest']|] eqn:Ev; [|done]. injection H as <- <- <-.
    destruct (proj1 (value_spec (trim_left r3) rest')) as (value & E5 & Hv); [by exists y|]. rewrite E5 in E4.
    exists w1, w2, w3, w4, name, value. split_and!; try done; [by apply mime_token_all|]. by rewrite E1, E2, E3, E4.
  - intros (w1 & w2 & w3 & w4 & name & value & H1 & H2 & H3 & H4 & Hn & Hv & -> & ->).
    pose proof Hn as Hn'. apply mime_token_all in Hn' as [Hne Ht]. destruct (token_head _ Hne Ht) as (a & r & Ea & Ha & _).
    rewrite trim_white; [|done|by apply visible_not_white].
    change (strip_prefix ";" (";" +:+ w2 +:+ name +:+ w3 +:+ "=" +:+ w4 +:+ value +:+ rest)) with
      (Some (w2 +:+ name +:+ w3 +:+ "=" +:+ w4 +:+ value +:+ rest)). cbv iota.
    rewrite trim_white; [|done|rewrite Ea, app_cons_s; by apply visible_not_white].
    rewrite (proj2 (consume_token_spec (name +:+ w3 +:+ "=" +:+ w4 +:+ value +:+ rest) name (w3 +:+ "=" +:+ w4 +:+ value +:+ rest))).
    2:{ split; [done|]. split; [done|]. by apply (after_white w3 "="). }
    apply seqb_false in Hne. rewrite Hne. rewrite trim_white; [|done|by apply visible_not_white].
    change (strip_prefix "=" ("=" +:+ w4 +:+ value +:+ rest)) with (Some (w4 +:+ value +:+ rest)). cbv iota.
    destruct (value_visible value) as (b & s & Eb & Hb); [tauto|].
    rewrite trim_white; [|done|rewrite Eb, app_cons_s; by apply visible_not_white].
    destruct (proj2 (value_spec (value +:+ rest) rest)) as (x & ->); [by exists value|]. by exists x.
Qed.
Lemma trim_starts s : ~ starts_white s -> trim_left s = s.
Proof. intros H. rewrite <- (app_nil_s s) at 1. apply trim_white; [by exists []|done]. Qed.
Lemma trim_param v : consume_media_param (trim_left v) = consume_media_param v.
Proof.
  unfold consume_media_param. destruct (trim_left_spec v) as (_ & _ & _ & H). by rewrite (trim_starts _ H).
Qed.
Lemma same_name name e : same_ignoring_case name e <-> to_lower name = to_lower e.
Proof. rewrite same_ignoring_case_fold. unfold equal_fold. apply seqb_true. Qed.
Lemma loop_spec n : forall v earlier, (slen v < n)%nat ->
  media_params n (map to_lower earlier) v = Some true <-> parameters earlier v.
Proof.
  induction n as [|n IH]; intros v earlier Hn; [lia|]. cbn [media_params].
  destruct (trim_left_spec v) as (w & Hw & Ew & Hst). destruct (seqb (trim_left v) "") eqn:Ee.
  { apply seqb_true in Ee. split; [|done]. intros _. apply parameters_end. by apply trim_nil_white. }
  apply seqb_false in Ee. rewrite trim_param. destruct (consume_media_param v) as [[[k x] rest]|] eqn:Ep.
  - destruct (proj1 (param_spec v k rest)) as (w1 & w2 & w3 & w4 & name & value & H1 & H2 & H3 & H4 & Hname & Hv & -> & Ev); [by exists x|].
    assert (Hl : (slen rest < n)%nat).
    { apply (f_equal slen) in Ev. rewrite !slen_app in Ev. cbn [String.length] in Ev. lia. }
    assert (Hex : existsb (seqb (to_lower name)) (map to_lower earlier) = false <-> forall e, In e earlier -> ~ same_ignoring_case name e).
    { split.
      - intros H e He Hs. apply same_name in Hs. assert (existsb (seqb (to_lower name)) (map to_lower earlier) = true); [|congruence].
        apply existsb_exists. exists (to_lower e). split; [by apply in_map|by apply seqb_true].
      - intros H. destruct (existsb _ _) eqn:E; [|done]. apply existsb_exists in E as (e' & He & Es). apply in_map_iff in He as (e & <- & He).
        apply seqb_true in Es. by destruct (H e He (proj2 (same_name name e) Es)). }
    destruct (existsb _ _) eqn:Eb.
    + split; [done|]. intros Hp. exfalso. destruct Hp as [w0 Hw0|w0 w0' Hw0 Hw0'|w1' w2' w3' w4' name' value' rest' H1' H2' H3' H4' Hname' Hfresh Hv' Hrest].
      * apply Ee. by apply trim_white_nil.
      * destruct (proj2 (param_spec (w0 +:+ ";" +:+ w0') (to_lower name) rest)) as (y & Hy); [by exists w1, w2, w3, w4, name, value|].
        unfold consume_media_param in Hy. rewrite trim_white in Hy; [|done|by apply visible_not_white].
        change (strip_prefix ";" (";" +:+ w0')) with (Some w0') in Hy. cbv iota in Hy. by rewrite (trim_white_nil _ Hw0') in Hy.
      * destruct (proj2 (param_spec (w1' +:+ ";" +:+ w2' +:+ name' +:+ w3' +:+ "=" +:+ w4' +:+ value' +:+ rest') (to_lower name') rest')) as (y & Hy).
        { exists w1', w2', w3', w4', name', value'. split_and!; try done. destruct Hv' as [Hv'|Hv']; [left|by right].
          split; [done|]. by eapply parameters_head. }
        rewrite Hy in Ep. injection Ep as Ek _ _. enough (Hno : forall e, In e earlier -> ~ same_ignoring_case name e) by (apply Hex in Hno; congruence). intros e He Hs. apply (Hfresh e He).
        apply same_name. apply same_name in Hs. congruence.
    + change (to_lower name :: map to_lower earlier) with (map to_lower (name :: earlier)). rewrite (IH _ _ Hl). split.
      * intros Hp. rewrite Ev. apply parameters_more; try done; [by apply Hex|tauto].
      * intros Hp. destruct Hp as [w0 Hw0|w0 w0' Hw0 Hw0'|w1' w2' w3' w4' name' value' rest' H1' H2' H3' H4' Hname' Hfresh Hv' Hrest].
        -- exfalso. apply Ee. by apply trim_white_nil.
        -- exfalso. unfold consume_media_param in Ep. rewrite trim_white in Ep; [|done|by apply visible_not_white].
           change (strip_prefix ";" (";" +:+ w0')) with (Some w0') in Ep. cbv iota in Ep. by rewrite (trim_white_nil _ Hw0') in Ep.
        -- destruct (proj2 (param_spec (w1' +:+ ";" +:+ w2' +:+ name' +:+ w3' +:+ "=" +:+ w4' +:+ value' +:+ rest') (to_lower name') rest')) as (y & Hy).
           { exists w1', w2', w3', w4', name', value'. split_and!; try done. destruct Hv' as [Hv'|Hv']; [left|by right].
             split; [done|]. by eapply parameters_head. }
           rewrite Hy in Ep. injection Ep as Ek _ Er. rewrite Er in Hrest. apply (proj1 (IH _ _ Hl)).
           apply (proj2 (IH _ _ Hl)) in Hrest. cbn [map] in *. by rewrite <- Ek.
  - split.
    + intros [= H]. apply seqb_true in H. destruct (trim_space_spec (trim_left v)) as (p & q & Hp & Hq & E & _ & _). rewrite H in E.
      rewrite Ew, E, <- app_assoc_s. apply parameters_semicolon; [by apply only_white_app|done].
    + intros Hp. f_equal. apply seqb_true. destruct Hp as [w0 Hw0|w0 w0' Hw0 Hw0'|w1' w2' w3' w4' name' value' rest' H1' H2' H3' H4' Hname' Hfresh Hv' Hrest].
      * exfalso. apply Ee. by apply trim_white_nil.
      * rewrite trim_white; [|done|by apply visible_not_white]. apply (trim_space_white "" ";" w0'); [by exists []|done|done|reflexivity].
      * exfalso. destruct (proj2 (param_spec (w1' +:+ ";" +:+ w2' +:+ name' +:+ w3' +:+ "=" +:+ w4' +:+ value' +:+ rest') (to_lower name') rest')) as (y & Hy).
        { exists w1', w2', w3', w4', name', value'. split_and!; try done. destruct Hv' as [Hv'|Hv']; [left|by right].
          split; [done|]. by eapply parameters_head. }
        by rewrite Hy in Ep.
Qed.

(** ** Content types *)
Lemma white_no c w : only_white w -> visible c = true -> contains c w = false.
Proof.
  intros Hw Hc. apply white_list in Hw as (l & Hl & ->). induction Hl as [|e l He Hl IH]; [done|].
  change (concat_all (e :: l)) with (e +:+ concat_all l). rewrite contains_app, IH, orb_false_r.
  assert (H : forallb (all_bytes (fun a => negb (visible a))) space_encodings = true) by (vm_compute; reflexivity).
  rewrite forallb_forall in H. eapply all_bytes_not_contains; [by apply H|]. cbn. by rewrite Hc.
Qed.
Lemma spelt_no b t : spelt b t -> contains ";" t = false -> contains ";" b = false.
Proof.
  induction 1 as [|a c s t H1 H2 H IH|s t H IH|s t H IH]; [done| | |].
  - pose proof (proj1 (lower_letter a c) (conj H1 H2)) as ->. cbn [contains]. rewrite !orb_false_iff. intros [Ha Ht]. split; [|by apply IH].
    assert (HH : negb (Ascii.eqb a ";") || Ascii.eqb (lower_byte a) ";" = true) by (clear; revert a; apply ascii_forall; vm_compute; reflexivity).
    destruct (Ascii.eqb a ";") eqn:E; [|first [done|rewrite Ascii.eqb_sym; done]].
    cbn in HH. first [by rewrite HH in Ha|rewrite Ascii.eqb_sym in Ha; by rewrite HH in Ha].
  - cbn [contains]. rewrite contains_app, orb_false_iff. intros [_ Ht]. by rewrite (IH Ht).
  - cbn [contains]. rewrite contains_app, orb_false_iff. intros [_ Ht]. by rewrite (IH Ht).
Qed.
Lemma type_no t : type_name t -> contains ";" t = false.
Proof.
  assert (HH : forall s, mime_token s -> contains ";" s = false).
  { intros s Hs. apply mime_token_all in Hs as [_ Hs]. by eapply all_bytes_not_contains. }
  intros [H|(m & s & Hm & Hs & ->)]; [by apply HH|]. by rewrite !contains_app, (HH _ Hm), (HH _ Hs).
Qed.
Lemma parameters_split e rest : parameters e rest -> only_white rest \/
  exists w y, rest = w +:+ String ";" y /\ only_white w /\ parameters e (String ";" y).
Proof.
  intros [w Hw|w1 w2 H1 H2|w1 w2 w3 w4 name value rest' H1 H2 H3 H4 Hn Hf Hv Hr]; [by left|right..].
  - exists w1, w2. split; [done|]. split; [done|]. apply (parameters_semicolon e "" w2); [by exists []|done].
  - eexists w1, _. split; [reflexivity|]. split; [done|]. apply (parameters_more e "" w2 w3 w4 name value rest'); try done. by exists [].
Qed.
Lemma content_type_spec t ct : parse_media_type ct = (t, true) <-> typed t ct.
Proof.
  unfold parse_media_type, typed. split.
  - destruct (match cut ";" ct with Some (h, y) => (h, String ";" y) | None => (ct, "") end) as [head tail] eqn:Ec.
    assert (Ect : ct = head +:+ tail).
    { destruct (cut ";" ct) as [[h y]|] eqn:E; injection Ec as <- <-; [by apply cut_some in E as [? _]|by rewrite app_nil_r_s]. }
    destruct (media_type_ok (trim_space (lower_media head))) eqn:Eok; [|done]. cbn [negb].
    destruct (media_params _ _ _) as [ok|] eqn:Ep; [|done]. intros [= Et ->]. rewrite Et in Eok.
    apply (loop_spec _ tail []) in Ep; [|lia].
    destruct (proj1 (head_spec head t) (conj Et Eok)) as (w1 & b & w2 & H1 & H2 & Ht & Hb & ->).
    exists w1, b, w2, tail. split_and!; try done. by rewrite Ect, !app_assoc_s.
  - intros (w1 & b & w2 & rest & H1 & H2 & Ht & Hb & Hp & ->).
    assert (Hno : forall w, only_white w -> contains ";" (w1 +:+ b +:+ w2 +:+ w) = false).
    { intros w Hw. rewrite !contains_app. rewrite (spelt_no _ _ Hb (type_no _ Ht)).
      by rewrite (white_no ";" w1), (white_no ";" w2), (white_no ";" w) by done. }
    assert (Hh : forall w, only_white w -> trim_space (lower_media (w1 +:+ b +:+ w2 +:+ w)) = t /\ media_type_ok t = true).
    { intros w Hw. apply head_spec. exists w1, b, (w2 +:+ w). split_and!; try done. by apply only_white_app. }
    apply parameters_split in Hp as [Hw|(w & y & -> & Hw & Hp)].
    + pose proof (Hno _ Hw) as Hc. apply cut_none in Hc. rewrite Hc. destruct (Hh _ Hw) as [-> ->]. reflexivity.
    + replace (w1 +:+ b +:+ w2 +:+ w +:+ String ";" y) with ((w1 +:+ b +:+ w2 +:+ w) +:+ String ";" y) by (by rewrite !app_assoc_s).
      rewrite cut_app by (by apply Hno). destruct (Hh _ Hw) as [-> ->]. cbn [negb].
      pose proof (proj2 (loop_spec (S (slen (String ";" y))) (String ";" y) [] ltac:(lia)) Hp) as Hl. cbn [map] in Hl. rewrite Hl. reflexivity.
Qed.
Lemma typed_unique t t' ct : typed t ct -> typed t' ct -> t = t'.
Proof. rewrite <- !content_type_spec. congruence. Qed.
