(** Reading the members of an object: which member counts for a field, and the
    value it gives. *)
From Verif.Model Require Import GoStr Server Client.
From Verif.Spec Require Import ScopeSpec WireSpec RequestSpec ClientSpec DocumentSpec.
From Verif.Proof Require Import StrFacts DecFacts JsonFacts WireFacts NumberFacts NumberProofs NearestFacts QuotedFacts JsonText CodecFacts.
From Coq Require Import ZifyBool ZifyNat ZifyN.

#[local] Open Scope string_scope.

(** ** Names *)
Definition plain (c : ascii) : bool := is_lower c || Ascii.eqb c "_".
Definition plain_name (s : string) : Prop := all_bytes plain s = true.

Lemma plain_lower c : plain c = true -> lower_byte c = c.
Proof.
  assert (H : forallb (fun c => negb (plain c) || Ascii.eqb (lower_byte c) c) all_ascii = true) by (vm_compute; reflexivity).
  intros Hc. pose proof (ascii_forall _ H c) as H1. cbv beta in H1. rewrite Hc in H1. by apply Ascii.eqb_eq.
Qed.
Lemma lower_plain a : plain (lower_byte a) = true -> (ord a < 128)%N.
Proof.
  assert (H : forallb (fun a => negb (plain (lower_byte a)) || (ord a <? 128)%N) all_ascii = true) by (vm_compute; reflexivity).
  intros Ha. pose proof (ascii_forall _ H a) as H1. cbv beta in H1. rewrite Ha in H1. clear H. cbn [negb orb] in H1. lia.
Qed.
Lemma fold_key_ascii a r : (ord a < 128)%N -> fold_key (String a r) = String (lower_byte a) (fold_key r).
Proof.
  intros Ha. destruct r as [|b r1]; [done|]. cbn [fold_key]. replace (ord a =? 197)%N with false by lia. cbn [andb].
  destruct r1 as [|c r2]; [done|]. by replace (ord a =? 226)%N with false by lia.
Qed.
Lemma fold_key_long_s r : fold_key (utf8 0x17f +:+ r) = String "s" (fold_key r).
Proof. reflexivity. Qed.
Lemma fold_key_kelvin r : fold_key (utf8 0x212a +:+ r) = String "k" (fold_key r).
Proof. reflexivity. Qed.
Lemma fold_key_cases s : s = "" \/ (exists r, s = utf8 0x17f +:+ r) \/ (exists r, s = utf8 0x212a +:+ r) \/
  exists a r, s = String a r /\ fold_key s = String (lower_byte a) (fold_key r).
Proof.
  destruct s as [|a r]; [by left|]. right. destruct r as [|b r1]; [right; right; by exists a, ""|]. cbn [fold_key].
  destruct ((ord a =? 197) && (ord b =? 191))%N eqn:E2.
  { left. exists r1. apply andb_true_iff in E2 as [Ea Eb]. apply N.eqb_eq in Ea, Eb. by rewrite (chr_ord_eq _ _ Ea), (chr_ord_eq _ _ Eb). }
  right. destruct r1 as [|c r2]; [right; by exists a, (String b "")|].
  destruct ((ord a =? 226) && (ord b =? 132) && (ord c =? 170))%N eqn:E3.
  { left. exists r2. apply andb_true_iff in E3 as [E3 Ec]. apply andb_true_iff in E3 as [Ea Eb]. apply N.eqb_eq in Ea, Eb, Ec.
    by rewrite (chr_ord_eq _ _ Ea), (chr_ord_eq _ _ Eb), (chr_ord_eq _ _ Ec). }
  right. by exists a, (String b (String c r2)).
Qed.
Lemma fold_names field key : plain_name field -> fold_key key = field <-> names key field.
Proof.
  unfold plain_name. intros Hp. split.
  - remember (slen key) as m eqn:Hm. revert key field Hp Hm. induction (lt_wf m) as [m _ IH]. intros key field Hp Hm H. subst m.
    assert (IH' : forall k f, slen k < slen key -> all_bytes plain f = true -> fold_key k = f -> names k f).
    { intros k f Hk Hf. by apply (IH (slen k) Hk). }
    clear IH. destruct (fold_key_cases key) as [->|[(r & ->)|[(r & ->)|(a & r & -> & E)]]].
    + subst field. constructor.
    + rewrite fold_key_long_s in H. subst field. cbn [all_bytes] in Hp. apply names_long_s. apply IH'; [rewrite slen_app; cbn; lia|done|done].
    + rewrite fold_key_kelvin in H. subst field. cbn [all_bytes] in Hp. apply names_kelvin. apply IH'; [rewrite slen_app; cbn; lia|done|done].
    + rewrite E in H. subst field. cbn [all_bytes] in Hp. apply andb_true_iff in Hp as [Ha Hp]. constructor.
      * apply same_letter_lower. symmetry. by apply plain_lower.
      * apply IH'; [cbn; lia|done|done].
  - intros H. induction H as [|a c key field Hac H IH|key field H IH|key field H IH]; [done|..]; cbn [all_bytes] in Hp; apply andb_true_iff in Hp as [Hc Hp].
    + apply same_letter_lower in Hac. rewrite (plain_lower _ Hc) in Hac.
      rewrite fold_key_ascii by (apply lower_plain; by rewrite Hac). by rewrite Hac, IH.
    + by rewrite fold_key_long_s, IH.
    + by rewrite fold_key_kelvin, IH.
Qed.
Lemma fold_plain s : plain_name s -> fold_key s = s.
Proof.
  intros H. apply fold_names; [done|]. unfold plain_name in H. induction s as [|a s IH]; [constructor|].
  cbn [all_bytes] in H. apply andb_true_iff in H as [_ H]. constructor; [by left|by apply IH].
Qed.
Lemma field_match_names field key : plain_name field -> field_match field key = true <-> names key field.
Proof.
  intros Hp. rewrite <- fold_names by done. unfold field_match. rewrite orb_true_iff, !seqb_true. split; [|by right].
  intros [->|H]; [by apply fold_plain|done].
Qed.
Lemma given_members field o l : plain_name field -> given field o l <-> members field o = l.
Proof.
  intros Hp. split.
  - induction 1 as [|key v o l Hn H IH|key v o l Hn H IH]; [done|..]; rewrite members_cons.
    + apply (field_match_names _ _ Hp) in Hn. by rewrite Hn, IH.
    + assert (field_match field key = false) as ->; [|by rewrite IH]. apply Bool.not_true_iff_false. by rewrite field_match_names.
  - intros <-. induction o as [|[key v] o IH]; [constructor|]. rewrite members_cons. destruct (field_match field key) eqn:E.
    + apply given_this; [by apply field_match_names|done].
    + apply given_other; [|done]. rewrite <- field_match_names by done. by rewrite E.
Qed.

(** ** Values *)
Lemma stored_snoc {A} (f : A -> json -> option A) init l v :
  stored f init (l ++ [v]) = match stored f init l with Some x => f x v | None => None end.
Proof. unfold stored. by rewrite fold_left_app. Qed.

Lemma stored_last {A} (f : A -> json -> option A) (is : json -> A -> Prop) zero l x :
  (forall old, f old JNull = Some old) -> (forall y, ~ is JNull y) ->
  (forall v, In v l -> v <> JNull -> forall old y, f old v = Some y <-> is v y) ->
  stored f zero l = Some x <-> last_given is zero l x.
Proof.
  intros Hnull Hnis. revert x. induction l as [|v l IH] using rev_ind; intros x Hf.
  - unfold stored, last_given. cbn [fold_left]. split.
    + intros [= <-]. split; [done|]. left. by split.
    + intros [_ [[-> _]|(b & v & a & H & _)]]; [done|]. by destruct b.
  - rewrite stored_snoc.
    assert (IH' : forall y, stored f zero l = Some y <-> last_given is zero l y).
    { intros y. apply IH. intros w Hw. apply Hf. apply in_app_iff. by left. }
    clear IH. assert (Hd : v = JNull \/ v <> JNull) by (destruct v; (by left) || by right). destruct Hd as [->|Hv].
    + assert (Hgoal : last_given is zero (l ++ [JNull]) x <-> last_given is zero l x).
      { unfold last_given. split; intros [H1 H2]; split.
        - intros w Hw. apply H1. apply in_app_iff. by left.
        - destruct H2 as [[-> H2]|(b & v & a & E & Hi & Ha)].
          + left. split; [done|]. by apply Forall_app in H2 as [? _].
          + right. destruct a as [|a0 a _] using rev_ind.
            * apply app_inj_tail in E as [_ <-]. by apply Hnis in Hi.
            * rewrite app_comm_cons, app_assoc in E. apply app_inj_tail in E as [-> <-]. apply Forall_app in Ha as [Ha _]. by exists b, v, a.
        - intros w Hw. apply in_app_iff in Hw as [Hw|[<-|[]]]; [by apply H1|by left].
        - destruct H2 as [[-> H2]|(b & v & a & -> & Hi & Ha)].
          + left. split; [done|]. apply Forall_app. split; [done|by repeat constructor].
          + right. exists b, v, (a ++ [JNull])%list. split; [by rewrite <- app_assoc|]. split; [done|]. apply Forall_app. split; [done|by repeat constructor]. }
      rewrite Hgoal, <- IH'. destruct (stored f zero l) as [y|]; [by rewrite Hnull|done].
    + assert (Hv' : forall old y, f old v = Some y <-> is v y) by (apply Hf; [apply in_app_iff; right; by left|done]). split.
      * destruct (stored f zero l) as [y|] eqn:E; [|done]. intros H. apply Hv' in H. pose proof (proj1 (IH' y) eq_refl) as [H1 _]. split.
        -- intros w Hw. apply in_app_iff in Hw as [Hw|[<-|[]]]; [by apply H1|right; by exists x].
        -- right. exists l, v, []. by repeat split.
      * intros [H1 H2]. assert (Hx : is v x).
        { destruct H2 as [[_ H2]|(b & w & a & E & Hi & Ha)].
          - apply Forall_app in H2 as [_ H2]. inversion H2; subst. done.
          - destruct a as [|a0 a _] using rev_ind; [by apply app_inj_tail in E as [_ <-]|].
            rewrite app_comm_cons, app_assoc in E. apply app_inj_tail in E as [_ <-]. apply Forall_app in Ha as [_ Ha]. inversion Ha; subst. done. }
        assert (exists y, stored f zero l = Some y) as [y ->]; [|by apply Hv'].
        assert (Hall : forall w, In w l -> w = JNull \/ exists y, is w y). { intros w Hw. apply H1, in_app_iff. by left. }
        assert (Hs : forall w, In w l -> w <> JNull -> forall old y, f old w = Some y <-> is w y). { intros w Hw. apply Hf, in_app_iff. by left. }
        clear -Hnull Hall Hs. induction l as [|w l IH] using rev_ind; [by exists zero|]. rewrite stored_snoc.
        destruct IH as [y ->]; [intros u Hu; apply Hall, in_app_iff; by left|intros u Hu; apply Hs, in_app_iff; by left|].
        destruct (Hall w) as [->|[z Hz]]; [apply in_app_iff; right; by left|by exists y|].
        destruct w; try (exists z; apply Hs; [apply in_app_iff; right; by left|done|done]). exists y. apply Hnull.
Qed.

Lemma text_field_spec field o s : plain_name field -> decode_field store_string "" field o = Some s <-> text_field field o s.
Proof.
  intros Hp. rewrite decode_stored. unfold text_field, field_is. rewrite (stored_last store_string is_text).
  - split; [intros H; exists (members field o); by rewrite given_members|]. intros (l & Hl & H). apply given_members in Hl; [|done]. by subst l.
  - done.
  - done.
  - unfold is_text. intros v _ Hv old y. destruct v; cbn [store_string]; split; congruence.
Qed.
Lemma truth_field_spec field o b : plain_name field -> decode_field store_bool false field o = Some b <-> truth_field field o b.
Proof.
  intros Hp. rewrite decode_stored. unfold truth_field, field_is. rewrite (stored_last store_bool is_truth).
  - split; [intros H; exists (members field o); by rewrite given_members|]. intros (l & Hl & H). apply given_members in Hl; [|done]. by subst l.
  - done.
  - done.
  - unfold is_truth. intros v _ Hv old y. destruct v; cbn [store_bool]; split; congruence.
Qed.

Lemma dec_value_digits s acc v : dec_value s acc = Some v -> digits s = true.
Proof.
  revert acc. induction s as [|a s IH]; intros acc; [done|]. cbn [dec_value]. unfold digits. cbn [all_bytes].
  destruct (is_digit a); [|done]. apply IH.
Qed.
Lemma digits_nonneg d : digits d = true -> (0 <= digits_value d)%Z.
Proof. intros H. apply digits_value_bound in H. lia. Qed.
Lemma minus_not_digit r : digits (String "-" r) = false.
Proof. reflexivity. Qed.
Lemma json_number_not_minus : ~ json_number "-".
Proof.
  intros H. apply json_number_ok in H as [H _]. specialize (H "" eq_refl). discriminate H.
Qed.
Lemma parse_int64_spec lit z : json_number lit -> parse_int64 lit = Some z <-> is_integer (JNum lit) z.
Proof.
  intros Hn. unfold is_integer, parse_int64.
  assert (Hrange : forall v : Z, (if ((-9223372036854775808 <=? v)%Z && (v <=? 9223372036854775807)%Z) then Some v else None) = Some z <-> v = z /\ int64 v).
  { intros v. unfold int64. destruct (_ && _) eqn:E; split; [intros [= ->]|intros [-> _]|done|intros [_ H]]; [split; [done|lia]|done|lia]. }
  destruct lit as [|a r].
  { split; [done|]. intros (sign & d & Hs & [Hd _] & E & _). injection E as E. symmetry in E. by apply app_eq_nil in E as [_ ->]. }
  destruct (Ascii.eqb_spec a "-") as [->|Hne].
  - split.
    + destruct (dec_value r 0) as [n|] eqn:E; [|done]. cbn [option_map]. rewrite Hrange. intros [<- Hr].
      assert (Hd : decimal_digits r). { apply decimal_digits_spec. split; [intros ->; by apply json_number_not_minus|by apply dec_value_digits in E]. }
      exists "-", r. split; [by right; left|]. split; [done|]. split; [done|]. split; [done|].
      rewrite decide_True by done. apply decimal_digits_spec in Hd as [_ Hd]. rewrite digits_value_dec in E by done. injection E as <-.
      apply digits_nonneg in Hd. lia.
    + intros (sign & d & Hs & Hd & E & Hr & Hz). injection E as E. apply decimal_digits_spec in Hd as [Hne Hd]. destruct Hs as [<-|[<-|[]]].
      { rewrite app_nil_s in E. subst d. by rewrite minus_not_digit in Hd. }
      injection E as ->. rewrite decide_True in Hz by done. rewrite digits_value_dec by done. cbn [option_map]. apply Hrange.
      apply digits_nonneg in Hd. split; [lia|]. unfold int64 in *. lia.
  - split.
    + destruct (dec_value (String a r) 0) as [n|] eqn:E; [|done]. cbn [option_map]. rewrite Hrange. intros [<- Hr].
      assert (Hd : decimal_digits (String a r)). { apply decimal_digits_spec. split; [done|by apply dec_value_digits in E]. }
      exists "", (String a r). split; [by left|]. split; [done|]. split; [done|]. split; [done|].
      rewrite decide_False by done. apply decimal_digits_spec in Hd as [_ Hd]. rewrite digits_value_dec in E by done. injection E as <-.
      apply digits_nonneg in Hd. lia.
    + intros (sign & d & Hs & Hd & E & Hr & Hz). injection E as E. apply decimal_digits_spec in Hd as [Hne' Hd]. destruct Hs as [<-|[<-|[]]].
      2:{ injection E as -> _. done. }
      rewrite app_nil_s in E. subst d. rewrite decide_False in Hz by done. rewrite digits_value_dec by done. cbn [option_map]. apply Hrange.
      apply digits_nonneg in Hd. split; [lia|]. unfold int64 in *. lia.
Qed.

(** Every number in a JSON text is one. *)
Definition numbers_ok (j : json) : Prop := forall x, number_in x j -> json_number x.
Lemma says_numbers :
  (forall s j, says s j -> numbers_ok j) /\ (forall s l, says_list s l -> Forall numbers_ok l) /\
  (forall s l, says_table s l -> Forall (fun kv => numbers_ok (snd kv)) l).
Proof.
  apply says_mutind; unfold numbers_ok.
  - intros x H. inversion H.
  - intros x H. inversion H.
  - intros x H. inversion H.
  - intros s Hs x H. by inversion H; subst.
  - intros s l _ x H. inversion H.
  - intros w _ x H. inversion H; subst. done.
  - intros s l _ HF x H. inversion H; subst. rewrite List.Forall_forall in HF. eapply HF; eassumption.
  - intros w _ x H. inversion H; subst. done.
  - intros s l _ HF x H. inversion H; subst. rewrite List.Forall_forall in HF. eapply (HF (_, _)); eassumption.
  - intros w1 s w2 j _ _ _ H. by repeat constructor.
  - intros w1 s w2 j t l _ _ _ H _ HF. by constructor.
  - intros w1 k q w2 w3 s w4 j _ _ _ _ _ _ H. by repeat constructor.
  - intros w1 k q w2 w3 s w4 j t l _ _ _ _ _ _ H _ HF. by constructor.
Qed.
Lemma parsed_numbers s j : json_parse s = Some j -> numbers_ok j.
Proof. intros H. apply json_parse_spec in H as [(w1 & t & w2 & _ & _ & _ & H) _]. by apply (proj1 says_numbers) in H. Qed.

Lemma members_in field o v : In v (members field o) -> exists k, In (k, v) o.
Proof. unfold members. intros H. apply in_map_iff in H as ([k w] & <- & H). apply List.filter_In in H as [H _]. by exists k. Qed.
Lemma integer_field_spec field o z : plain_name field -> numbers_ok (JObj o) ->
  decode_field store_int 0%Z field o = Some z <-> integer_field field o z.
Proof.
  intros Hp Hn. rewrite decode_stored. unfold integer_field, field_is. rewrite (stored_last store_int is_integer).
  - split; [intros H; exists (members field o); by rewrite given_members|]. intros (l & Hl & H). apply given_members in Hl; [|done]. by subst l.
  - done.
  - intros y (sign & d & _ & _ & E & _). discriminate E.
  - intros v Hin Hv old y. destruct v as [| |lit| | |]; cbn [store_int]; try (split; [done|]; intros (sign & d & _ & _ & E & _); discriminate E).
    apply parse_int64_spec. apply members_in in Hin as [k Hin]. apply Hn. apply in_object with k (JNum lit); [done|constructor].
Qed.

Lemma scope_field_spec field o sc : plain_name field -> decode_field store_scope None field o = Some sc <-> scope_field field o sc.
Proof.
  intros Hp. rewrite decode_stored. unfold scope_field.
  assert (H : forall l sc, stored store_scope None l = Some sc <->
    (forall v, In v l -> v = JNull \/ exists s, v = JStr s) /\
    ((l = [] /\ sc = None) \/ exists before v s, l = (before ++ [v])%list /\ (v = JStr s \/ (v = JNull /\ s = "")) /\ sc = parse_scope s)).
  { clear. intros l. induction l as [|v l IH] using rev_ind; intros sc.
    - split; [intros [= <-]; split; [done|by left]|]. intros [_ [[_ ->]|(b & v & s & E & _)]]; [done|]. by destruct b.
    - rewrite stored_snoc. split.
      + destruct (stored store_scope None l) as [y|] eqn:E; [|done]. pose proof (proj1 (IH y) eq_refl) as [H1 _]. intros H. split.
        * intros w Hw. apply in_app_iff in Hw as [Hw|[<-|[]]]; [by apply H1|]. destruct v; try done; [by left|right; by eexists].
        * right. destruct v as [| | |s| |]; try done; injection H as <-.
          -- exists l, JNull, "". split; [done|]. split; [by right|done].
          -- exists l, (JStr s), s. split; [done|]. split; [by left|done].
      + intros [H1 H2]. assert (exists y, stored store_scope None l = Some y) as [y ->].
        { assert (Hall : forall w, In w l -> w = JNull \/ exists s, w = JStr s). { intros w Hw. apply H1, in_app_iff. by left. }
          clear -Hall. induction l as [|w l IH] using rev_ind; [by eexists|]. rewrite stored_snoc.
          destruct IH as [y ->]; [intros u Hu; apply Hall, in_app_iff; by left|].
          destruct (Hall w) as [->|[s ->]]; [apply in_app_iff; right; by left|by eexists|by eexists]. }
        destruct H2 as [[H2 _]|(b & w & s & E & Hs & ->)]; [by destruct l|]. apply app_inj_tail in E as [_ <-].
        destruct Hs as [->|[-> ->]]; done. }
  rewrite H. split.
  - intros [H1 H2]. exists (members field o). by rewrite given_members.
  - intros (l & Hl & H1). apply given_members in Hl; [|done]. by subst l.
Qed.

(** ** Maps *)
Lemma key_before_trans a b c : key_before a b -> key_before b c -> key_before a c.
Proof.
  intros [H1 H2] [H3 H4]. split; [by eapply str_leb_trans|]. intros E. apply H2. apply str_leb_antisym; [done|]. by rewrite E.
Qed.
Lemma map_put_in k v m : StronglySorted key_before m ->
  StronglySorted key_before (map_put k v m) /\
  forall k' v', In (k', v') (map_put k v m) <-> (k' = k /\ v' = v) \/ (k' <> k /\ In (k', v') m).
Proof.
  induction m as [|[k0 v0] m IH]; intros Hs.
  { cbn [map_put]. split; [by repeat constructor|]. intros k' v'. cbn [In]. split.
    - intros [[= <- <-]|[]]. by left.
    - intros [[-> ->]|[_ []]]. by left. }
  inversion Hs as [|? ? Hs' Hh]; subst. cbn [map_put].
  assert (Hnot : forall v', ~ In (k0, v') m). { intros v' Hin. rewrite List.Forall_forall in Hh. by apply Hh in Hin as [_ H]. }
  destruct (seqb k k0) eqn:E.
  { apply seqb_true in E as ->. split.
    - constructor; [done|]. eapply Forall_impl; [exact Hh|]. by intros [? ?] [? ?].
    - intros k' v'. cbn [In]. split.
      + intros [[= <- <-]|Hin]; [by left|]. right. split; [intros ->; by eapply Hnot|by right].
      + intros [[-> ->]|[Hne [[= -> ->]|Hin]]]; [by left|done|by right]. }
  apply seqb_false in E. destruct (str_leb k k0) eqn:El.
  { assert (Hk : key_before (k, v) (k0, v0)) by done. split.
    - constructor; [done|]. constructor; [done|]. eapply Forall_impl; [exact Hh|]. intros x Hx. by eapply key_before_trans.
    - assert (Hnk : forall v', ~ In (k, v') ((k0, v0) :: m)).
      { intros v' [[= -> ->]|Hin]; [done|]. rewrite List.Forall_forall in Hh. apply Hh in Hin as [H1 _]. apply E. by apply str_leb_antisym. }
      intros k' v'. split.
      + intros [[= <- <-]|Hin]; [by left|]. right. split; [intros ->; by eapply Hnk|done].
      + intros [[-> ->]|[_ Hin]]; [by left|by right]. }
  assert (El' : str_leb k0 k = true) by (destruct (str_leb_total k0 k); congruence).
  destruct (IH Hs') as [Hs2 Hin2]. split.
  - constructor; [done|]. apply List.Forall_forall. intros [k' v'] Hin. apply Hin2 in Hin as [[-> ->]|[_ Hin]]; [by split|].
    rewrite List.Forall_forall in Hh. by apply Hh.
  - intros k' v'. cbn [In]. rewrite Hin2. split.
    + intros [[= <- <-]|[[-> ->]|[Hne Hin]]]; [right; split; [congruence|by left]|by left|right; split; [done|by right]].
    + intros [[-> ->]|[Hne [[= -> ->]|Hin]]]; [right; by left|by left|right; by right].
Qed.
Lemma last_of_snoc k l k0 v0 v : last_of k (l ++ [(k0, v0)]) v <-> (k = k0 /\ v = v0) \/ (k <> k0 /\ last_of k l v).
Proof.
  unfold last_of. split.
  - intros (b & a & E & Hn). destruct a as [|a0 a _] using rev_ind.
    + apply app_inj_tail in E as [_ [= -> ->]]. by left.
    + rewrite app_comm_cons, app_assoc in E. apply app_inj_tail in E as [-> <-]. rewrite map_app in Hn. right. split.
      * intros ->. apply Hn, in_app_iff. right. by left.
      * exists b, a. split; [done|]. intros H. apply Hn, in_app_iff. by left.
  - intros [[-> ->]|(Hne & b & a & -> & Hn)].
    + exists l, []. split; [done|intros []].
    + exists b, (a ++ [(k0, v0)])%list. split; [by rewrite <- app_assoc|]. rewrite map_app, in_app_iff. intros [H|[H|[]]]; [done|by apply Hne].
Qed.
Lemma map_put_all_snoc l x m : map_put_all (l ++ [x]) m = map_put (fst x) (snd x) (map_put_all l m).
Proof. unfold map_put_all. by rewrite fold_left_app. Qed.
Lemma map_put_all_table l : table_of l (map_put_all l []).
Proof.
  induction l as [|[k v] l [IHs IHi]] using rev_ind.
  - split; [constructor|]. intros k v. split; [intros []|]. intros (b & a & E & _). by destruct b.
  - rewrite map_put_all_snoc. cbn [fst snd]. destruct (map_put_in k v _ IHs) as [Hs Hi]. split; [done|].
    intros k' v'. by rewrite Hi, IHi, last_of_snoc.
Qed.
Lemma sorted_unique (s t : list (string * json)) : StronglySorted key_before s -> StronglySorted key_before t ->
  (forall k v, In (k, v) s <-> In (k, v) t) -> s = t.
Proof.
  intros Hs. revert t. induction Hs as [|[k v] s Hs IH Hh]; intros t Ht H.
  - destruct t as [|[k v] t]; [done|]. exfalso. apply (H k v). by left.
  - inversion Ht as [|[k' v'] t' Ht' Hh']; subst.
    { exfalso. apply (H k v). by left. }
    rewrite List.Forall_forall in Hh, Hh'.
    assert (Ekv : (k, v) = (k', v')).
    { pose proof (proj1 (H k v) (or_introl eq_refl)) as [E|H1]; [done|]. pose proof (proj2 (H k' v') (or_introl eq_refl)) as [E|H2]; [done|].
      exfalso. pose proof (Hh _ H2) as [A1 A2]. pose proof (Hh' _ H1) as [A3 A4]. apply A2. by apply str_leb_antisym. }
    injection Ekv as -> ->. f_equal. apply IH; [done|]. intros k v. split; intros Hin.
    + pose proof (proj1 (H k v) (or_intror Hin)) as [[= -> ->]|H1]; [|done]. by apply Hh in Hin as [_ ?].
    + pose proof (proj2 (H k v) (or_intror Hin)) as [[= -> ->]|H1]; [|done]. by apply Hh' in Hin as [_ ?].
Qed.
Lemma table_of_put l t : table_of l t <-> t = map_put_all l [].
Proof.
  split; [|intros ->; apply map_put_all_table]. intros [Hs Hi]. destruct (map_put_all_table l) as [Hs' Hi'].
  apply sorted_unique; [done|done|]. intros k v. by rewrite Hi, Hi'.
Qed.

(** ** Values of any type *)
Lemma all_some_forall2 {A B} (f : A -> option B) l l' : all_some (map f l) = Some l' <-> Forall2 (fun a b => f a = Some b) l l'.
Proof.
  revert l'. induction l as [|a l IH]; intros l'; cbn [map all_some].
  - split; [intros [= <-]; constructor|by inversion 1].
  - destruct (f a) as [b|] eqn:E.
    + destruct (all_some (map f l)) as [r|] eqn:Er; cbn [option_map]; split.
      * intros [= <-]. constructor; [done|]. by apply IH.
      * inversion 1; subst. assert (b = y) as -> by congruence. f_equal. f_equal. assert (Some r = Some l'0) by (by apply IH). congruence.
      * done.
      * inversion 1; subst. assert (None = Some l'0) by (by apply IH). done.
    + split; [done|]. inversion 1; subst. congruence.
Qed.
Definition fine (j : json) : Prop := numbers_ok j /\ short_numbers j.
Lemma fine_elem j l : fine (JArr l) -> In j l -> fine j.
Proof. intros [H1 H2] Hin. split; intros s Hs; [apply H1|apply H2]; by apply in_slice with j. Qed.
Lemma fine_member k j l : fine (JObj l) -> In (k, j) l -> fine j.
Proof. intros [H1 H2] Hin. split; intros s Hs; [apply H1|apply H2]; by apply in_object with k j. Qed.

Lemma same_reading s v f g : number s v -> float_range v -> (Z.of_nat (slen s) <= 9000)%Z -> parse_float s = Some g ->
  nearest v f -> (f_neg f = true <-> exists r, s = String "-" r) -> f = g.
Proof.
  intros Hv Hr Hl Hg Hf Hs. destruct (parse_nearest s v Hv Hl) as [(_ & g' & Hg' & Hn & Hs')|[H _]]; [|done].
  assert (g' = g) as -> by congruence. eapply nearest_unique; [exact Hf|exact Hn|]. apply Bool.eq_iff_eq_true. by rewrite Hs, Hs'.
Qed.
Lemma forall2_any l l' : Forall (fun j => fine j -> forall j', any_of_json j = Some j' <-> reads j j') l -> (forall j, In j l -> fine j) ->
  Forall2 (fun a b => any_of_json a = Some b) l l' <-> Forall2 reads l l'.
Proof.
  intros H Hfine. revert l'. induction H as [|j l Hj H IH]; intros l'; [split; inversion 1; constructor|].
  assert (Hl : forall j, In j l -> fine j) by (intros; apply Hfine; by right). specialize (IH Hl).
  split; inversion 1; subst; constructor; try (by apply IH); apply Hj; try done; apply Hfine; by left.
Qed.
Lemma forall2_members l l' : Forall (fun kv => fine (snd kv) -> forall j', any_of_json (snd kv) = Some j' <-> reads (snd kv) j') l ->
  (forall kv, In kv l -> fine (snd kv)) ->
  any_members l = Some l' <-> member_reads l l'.
Proof.
  intros H Hfine. unfold any_members, member_reads. rewrite all_some_forall2. revert l'.
  induction H as [|[k j] l Hj H IH]; intros l'; [split; inversion 1; constructor|].
  assert (Hl : forall kv, In kv l -> fine (snd kv)) by (intros; apply Hfine; by right). specialize (IH Hl).
  cbn [fst snd] in *. assert (Hjf : fine j) by (apply (Hfine (k, j)); by left). split; inversion 1 as [|? [k' j'] ? l0 Hx Hr]; subst; constructor; try (by apply IH).
  - cbn [fst snd] in Hx. destruct (any_of_json j) as [x|] eqn:E; [|done]. cbn [option_map] in Hx. injection Hx as <- <-. split; [done|]. by apply Hj.
  - cbn [fst snd] in Hx. destruct Hx as [-> Hx]. apply Hj in Hx; [|done]. cbn [fst snd]. by rewrite Hx.
Qed.
Lemma any_reads j : fine j -> forall j', any_of_json j = Some j' <-> reads j j'.
Proof.
  induction j as [|b|lit|s|l IH|l IH] using json_ind2; intros Hf j'; cbn [any_of_json].
  - split; [intros [= <-]; constructor|by inversion 1].
  - split; [intros [= <-]; constructor|by inversion 1].
  - assert (Hn : json_number lit) by (apply Hf; constructor). destruct Hn as [v Hv].
    assert (Hl : (Z.of_nat (slen lit) <= 9000)%Z) by (apply Hf; constructor). split.
    + destruct (parse_float lit) as [f|] eqn:E; [|done]. cbn [option_map]. intros [= <-].
      destruct (parse_nearest lit v Hv Hl) as [(Hr & f' & Hf' & Hnear & Hs)|[_ H]]; [|congruence].
      assert (f' = f) as -> by congruence. by apply (reads_number lit v f).
    + inversion 1 as [| |s v' f Hv' Hr Hnear Hs| | |]; subst.
      destruct (parse_nearest lit v' Hv' Hl) as [(_ & g & Hg & _ & _)|[H' _]]; [|done]. rewrite Hg. cbn [option_map].
      by rewrite (same_reading lit v' f g).
  - split; [intros [= <-]; constructor|by inversion 1].
  - assert (Hel : forall j, In j l -> fine j) by (intros; by eapply fine_elem). split.
    + destruct (all_some (map any_of_json l)) as [l'|] eqn:E; [|done]. intros [= <-]. constructor.
      apply all_some_forall2 in E. by apply forall2_any.
    + inversion 1 as [| | | |? l' HF|]; subst. apply forall2_any in HF; [|done|done]. apply all_some_forall2 in HF. by rewrite HF.
  - assert (Hel : forall kv, In kv l -> fine (snd kv)) by (intros [k x] ?; by eapply fine_member). fold (any_members l). split.
    + destruct (any_members l) as [l'|] eqn:E; [|done]. intros [= <-]. apply reads_object with l'; [by apply forall2_members|]. by apply table_of_put.
    + inversion 1 as [| | | | |? l' t HF Ht]; subst. apply forall2_members in HF; [|done|done]. rewrite HF. apply table_of_put in Ht as ->. done.
Qed.
Lemma any_members_reads l l' : fine (JObj l) -> any_members l = Some l' <-> member_reads l l'.
Proof.
  intros Hf. apply forall2_members; [|intros [k x] ?; by eapply fine_member]. apply List.Forall_forall. intros kv _ Hk j'. by apply any_reads.
Qed.

(** ** The field of kind map *)
Lemma stored_map_spec l m : (forall v, In v l -> fine v) ->
  stored store_map None l = Some m <->
  exists before objects tables, l = (before ++ map JObj objects)%list /\
    (forall v, In v before -> v = JNull \/ exists l l', v = JObj l /\ member_reads l l') /\
    (before = [] \/ exists b, before = (b ++ [JNull])%list) /\
    Forall2 member_reads objects tables /\
    ((objects = [] /\ m = None) \/ (objects <> [] /\ exists t, m = Some t /\ table_of (List.concat tables) t)).
Proof.
  revert m. induction l as [|v l IH] using rev_ind; intros m Hfine.
  - split.
    + intros [= <-]. exists [], [], []. split; [done|]. split; [done|]. split; [by left|]. split; [constructor|by left].
    + intros (b & os & ts & E & _ & _ & _ & H). symmetry in E. apply List.app_eq_nil in E as [_ E]. apply map_eq_nil in E as ->.
      destruct H as [[_ ->]|[H _]]; done.
  - rewrite stored_snoc.
    assert (Hl : forall w, In w l -> fine w) by (intros; apply Hfine, in_app_iff; by left).
    assert (Hv : fine v) by (apply Hfine, in_app_iff; right; by left). specialize (fun m => IH m Hl). split.
    + destruct (stored store_map None l) as [m0|] eqn:E0; [|done]. intros H.
      destruct (proj1 (IH m0) eq_refl) as (b & os & ts & -> & Hb & Hn & HF & Hm). destruct v as [| | | | |o]; try done.
      * cbn [store_map] in H. injection H as <-. exists ((b ++ map JObj os) ++ [JNull])%list, [], [].
        split; [by rewrite app_nil_r|]. split; [|split; [right; by eexists|split; [constructor|by left]]].
        intros w Hw. apply in_app_iff in Hw as [Hw|[<-|[]]]; [|by left]. apply in_app_iff in Hw as [Hw|Hw]; [by apply Hb|].
        right. apply in_map_iff in Hw as (o & <- & Ho). clear -HF Ho. induction HF as [|x y l l' Hxy HF IH]; [done|].
        destruct Ho as [->|Ho]; [by exists o, y|by apply IH].
      * cbn [store_map] in H. destruct (any_members o) as [o'|] eqn:Eo; [|done]. cbn [option_map] in H. injection H as <-.
        apply any_members_reads in Eo; [|done]. exists b, (os ++ [o])%list, (ts ++ [o'])%list.
        split; [by rewrite map_app, app_assoc|]. split; [done|]. split; [done|]. split; [apply Forall2_app; [done|by constructor]|]. right.
        split; [by destruct os|]. eexists. split; [reflexivity|]. apply table_of_put. rewrite concat_app. cbn [List.concat]. rewrite app_nil_r.
        unfold map_put_all at 2. rewrite fold_left_app. fold (map_put_all (List.concat ts) []).
        change (fold_left _ o' ?x) with (map_put_all o' x). f_equal. destruct Hm as [[-> ->]|(_ & t & -> & Ht)].
        -- inversion HF; subst. done.
        -- by apply table_of_put in Ht as ->.
    + intros (b & os & ts & E & Hb & Hn & HF & Hm). destruct os as [|o os _] using rev_ind.
      * rewrite app_nil_r in E. destruct Hn as [->|[b' ->]]; [by destruct l|]. apply app_inj_tail in E as [-> ->].
        assert (exists m0, stored store_map None b' = Some m0) as [m0 ->].
        { assert (Hb' : forall w, In w b' -> fine w /\ (w = JNull \/ exists l l', w = JObj l /\ member_reads l l')).
          { intros w Hw. split; [by apply Hl|]. apply Hb, in_app_iff. by left. }
          clear -Hb'. induction b' as [|w b IH] using rev_ind; [by exists None|]. rewrite stored_snoc.
          destruct IH as [m0 ->]; [intros u Hu; apply Hb', in_app_iff; by left|].
          destruct (Hb' w) as [Hw [->|(l & l' & -> & Hr)]]; [apply in_app_iff; right; by left|by exists None|].
          apply any_members_reads in Hr; [|done]. cbn [store_map]. rewrite Hr. by eexists. }
        destruct Hm as [[_ ->]|[Hm _]]; done.
      * rewrite map_app, app_assoc in E. apply app_inj_tail in E as [-> ->].
        apply Forall2_app_inv_l in HF as (ts' & tl & HF & HF1 & ->). inversion HF1 as [|? o' ? tl' Ho Htl]; subst. inversion Htl; subst.
        destruct Hm as [[Hm _]|(_ & t & -> & Ht)]; [by destruct os|]. apply table_of_put in Ht as ->.
        set (m0 := match os with [] => None | _ => Some (map_put_all (List.concat ts') []) end).
        assert (stored store_map None (b ++ map JObj os) = Some m0) as ->.
        { apply IH. exists b, os, ts'. split; [done|]. split; [done|]. split; [done|]. split; [done|].
          subst m0. destruct os as [|x os]; [by left|]. right. split; [done|]. eexists. split; [reflexivity|]. apply map_put_all_table. }
        apply any_members_reads in Ho; [|done]. cbn [store_map]. rewrite Ho. cbn [option_map]. f_equal. f_equal.
        rewrite concat_app. cbn [List.concat]. rewrite app_nil_r. unfold map_put_all at 2. rewrite fold_left_app.
        fold (map_put_all (List.concat ts') []). change (fold_left _ o' ?x) with (map_put_all o' x). f_equal.
        subst m0. destruct os; [|done]. inversion HF; subst. done.
Qed.
Lemma map_field_spec field o m : plain_name field -> fine (JObj o) -> decode_field store_map None field o = Some m <-> map_field field o m.
Proof.
  intros Hp Hf. rewrite decode_stored, stored_map_spec.
  - unfold map_field. split; intros (b & os & ts & H & Hr); exists b, os, ts; (split; [|done]); by apply given_members.
  - intros v Hv. apply members_in in Hv as [k Hk]. by eapply fine_member.
Qed.
