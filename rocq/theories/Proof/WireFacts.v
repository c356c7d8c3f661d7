(** Bearer headers, error parameters, error documents. *)
From Verif.Model Require Import GoStr Bearer.
From Verif.Spec Require Import ScopeSpec WireSpec.
From Verif.Proof Require Import StrFacts UrlFacts ScopeFacts JsonFacts ScopeProofs.
From Coq Require Import ZifyBool ZifyNat ZifyN.

(** ** C11 *)

Lemma same_letter_lower a b : same_letter a b <-> lower_byte a = lower_byte b.
Proof.
  split.
  - intros [->|(n & Hn & H)]; [done|].
    assert (HH : forall n, (n < N.of_nat 26)%N ->
      Ascii.eqb (lower_byte (ascii_of_nat (65 + N.to_nat n))) (lower_byte (ascii_of_nat (97 + N.to_nat n))) = true).
    { apply N_forall. vm_compute. reflexivity. }
    specialize (HH (N.of_nat n)). rewrite Nat2N.id in HH. apply Ascii.eqb_eq in HH; [|lia].
    destruct H as [[-> ->]|[-> ->]]; congruence.
  - assert (Hof : forall n, n < 256 -> ascii_of_nat n = chr (N.of_nat n)) by done.
    assert (Hcase : forall x y, is_upper x = true -> chr (ord x + 32) = y ->
      exists n, n < 26 /\ x = ascii_of_nat (65 + n) /\ y = ascii_of_nat (97 + n)).
    { intros x y Hx <-. unfold is_upper in Hx. exists (N.to_nat (ord x) - 65). split; [lia|].
      rewrite !Hof by lia. split.
      - rewrite <- (chr_ord x) at 1. f_equal. lia.
      - f_equal. lia. }
    unfold lower_byte. destruct (is_upper a) eqn:Ea, (is_upper b) eqn:Eb; intros H.
    + left. apply ord_inj. pose proof (ord_lt a). pose proof (ord_lt b). unfold is_upper in Ea, Eb.
      apply (f_equal ord) in H. rewrite !ord_chr in H by lia. lia.
    + right. destruct (Hcase a b Ea H) as (n & ? & ? & ?). exists n. auto.
    + right. destruct (Hcase b a Eb (eq_sym H)) as (n & ? & ? & ?). exists n. auto.
    + by left.
Qed.

Lemma same_ignoring_case_fold s t : same_ignoring_case s t <-> equal_fold s t = true.
Proof.
  unfold same_ignoring_case, equal_fold. rewrite seqb_true. revert t.
  induction s as [|a s IH]; intros [|b t]; cbn.
  - split; [done|constructor].
  - split; [intros H; inversion H|done].
  - split; [intros H; inversion H|done].
  - split.
    + intros H. inversion H; subst. f_equal; [by apply same_letter_lower|by apply IH].
    + intros [= H1 H2]. constructor; [by apply same_letter_lower|by apply IH].
Qed.

Lemma same_ignoring_case_len s t : same_ignoring_case s t -> slen s = slen t.
Proof.
  rewrite same_ignoring_case_fold. unfold equal_fold. rewrite seqb_true. intros H.
  by rewrite <- (slen_to_lower s), H, slen_to_lower.
Qed.

Lemma slice_one n x a r : slen x = n -> slice_str n (n + 1) (x +:+ String a r) = Some (str1 a).
Proof.
  intros <-. unfold slice_str. replace (x +:+ String a r) with ((x +:+ str1 a) +:+ r).
  2:{ unfold str1. by snorm. }
  replace (slen x + 1) with (slen (x +:+ str1 a)) by (rewrite slen_app; done).
  rewrite take_str_app. apply drop_str_app.
Qed.
Lemma drop_one n x a r : slen x = n -> drop_str (n + 1) (x +:+ String a r) = Some r.
Proof.
  intros <-. replace (x +:+ String a r) with ((x +:+ str1 a) +:+ r).
  2:{ unfold str1. by snorm. }
  replace (slen x + 1) with (slen (x +:+ str1 a)) by (rewrite slen_app; done).
  apply drop_str_app.
Qed.

Lemma bearer_cases r :
  (rq_auth r = "" /\ parse_bearer_token r = BErr ProtectedResource) \/
  (exists scheme t, rq_auth r = scheme +:+ " " +:+ t /\ same_ignoring_case scheme "bearer" /\ t <> "" /\
     parse_bearer_token r = BToken t) \/
  (rq_auth r <> "" /\
   (forall scheme t, rq_auth r = scheme +:+ " " +:+ t -> same_ignoring_case scheme "bearer" -> t = "") /\
   parse_bearer_token r = BErr malformed_header).
Proof.
  unfold parse_bearer_token. change (slen BearerAccessTokenType) with 6.
  destruct (seqb (rq_auth r) "") eqn:E0; [left; split; [by apply seqb_true|done]|].
  apply seqb_false in E0. right.
  destruct (Nat.ltb_spec (slen (rq_auth r)) (6 + 2)) as [Hl|Hl].
  { right. split; [done|]. split; [|done]. intros sch t Heq Hs. apply same_ignoring_case_len in Hs.
    rewrite Heq, !slen_app, Hs in Hl. cbn in Hl. destruct t; [done|cbn in Hl; lia]. }
  destruct (take_str_le 6 (rq_auth r)) as (x & rest & Ht & Hd & Hx & Hr); [lia|].
  rewrite Ht. assert (Hlr : 2 <= slen rest) by (rewrite Hx, slen_app in Hl; lia).
  destruct rest as [|a [|b rest]]; [cbn in Hlr; lia|cbn in Hlr; lia|].
  destruct (equal_fold x BearerAccessTokenType) eqn:Ef; cbn [negb].
  2:{ right. split; [done|]. split; [|done]. intros sch t Heq Hs.
      assert (sch = x) as ->.
      { pose proof (same_ignoring_case_len _ _ Hs) as Hlen. cbn in Hlen.
        assert (take_str 6 (rq_auth r) = Some sch) by (rewrite Heq, <- Hlen; apply take_str_app). congruence. }
      apply same_ignoring_case_fold in Hs. change "bearer"%string with BearerAccessTokenType in Hs. congruence. }
  replace (slice_str 6 (6 + 1) (rq_auth r)) with (Some (str1 a)) by (rewrite Hx; symmetry; by apply slice_one).
  replace (drop_str (6 + 1) (rq_auth r)) with (Some (String b rest)) by (rewrite Hx; symmetry; by apply drop_one).
  destruct (seqb (str1 a) " ") eqn:Ea; cbn [negb].
  - apply seqb_true in Ea. injection Ea as ->. left. exists x, (String b rest).
    split; [by rewrite Hx|]. split; [by apply same_ignoring_case_fold|]. done.
  - apply seqb_false in Ea. right. split; [done|]. split; [|done]. intros sch t Heq Hs.
    pose proof (same_ignoring_case_len _ _ Hs) as Hlen. cbn in Hlen.
    assert (drop_str 6 (rq_auth r) = Some (" " +:+ t)) by (rewrite Heq, <- Hlen; apply drop_str_app).
    rewrite Hd in H. injection H as -> _. done.
Qed.

Lemma c11_token : forall r t,
  parse_bearer_token r = BToken t <->
  exists scheme, rq_auth r = scheme +:+ " " +:+ t /\ same_ignoring_case scheme "bearer" /\ t <> "".
Proof.
  intros r t. destruct (bearer_cases r) as [[H0 ->]|[(sch & t' & H1 & H2 & H3 & ->)|(H1 & H2 & ->)]].
  - split; [done|]. intros (sch & H & _). rewrite H0 in H. symmetry in H. apply app_eq_nil in H as [_ H]. done.
  - split.
    + intros [= <-]. by exists sch.
    + intros (sch' & H1' & H2' & H3'). f_equal. rewrite H1 in H1'.
      assert (slen sch = slen sch') by (apply same_ignoring_case_len in H2, H2'; lia).
      assert (take_str (slen sch) (sch +:+ " " +:+ t') = take_str (slen sch) (sch' +:+ " " +:+ t)) by congruence.
      rewrite H in H0 at 2. rewrite !take_str_app in H0. injection H0 as ->.
      apply app_inj_l in H1'. by injection H1'.
  - split; [done|]. intros (sch & Ha & Hb & Hc). exfalso. eauto.
Qed.

Lemma c11_errors : forall r,
  parse_bearer_token r <> BPanic /\
  (rq_auth r = "" <-> exists e, parse_bearer_token r = BErr e /\ e_status e = 401%Z) /\
  (forall e, parse_bearer_token r = BErr e ->
     (rq_auth r = "" /\ e = ProtectedResource) \/
     (rq_auth r <> "" /\ e_name e = "invalid_request" /\ e_status e = 400%Z)).
Proof.
  intros r. destruct (bearer_cases r) as [[H0 ->]|[(sch & t' & H1 & H2 & H3 & ->)|(H1 & H2 & ->)]].
  - split; [done|]. split; [split; [by eexists|done]|]. intros e [= <-]. auto.
  - split; [done|]. split; [split|done].
    + intros H. rewrite H in H1. symmetry in H1. apply app_eq_nil in H1 as [_ H1]. done.
    + intros (e & [=] & _).
  - split; [done|]. split; [split; [done|by intros (e & [= <-] & [=])]|].
    intros e [= <-]. auto.
Qed.

(** ** C12 *)

Lemma sort_params_perm (order order' : list (string * string)) : order ≡ₚ order' ->
  params_order order = params_order order'.
Proof. intros H. unfold params_order. by rewrite (sort_strings_ext _ (map param order')) by (by rewrite H). Qed.

Lemma c12_params : forall e order, order ≡ₚ map_to_list (error_map e) ->
  params_order order = error_params e.
Proof. intros e order H. by apply sort_params_perm. Qed.

Lemma fold_vadd_pairs order m : fold_left (fun v (kv : string * string) => vadd v (fst kv) (snd kv)) order m = add_pairs m order.
Proof. done. Qed.

Lemma c12_location : forall uri params order frag, order ≡ₚ map_to_list params ->
  redirect_location_order uri order frag = redirect_location uri params frag.
Proof.
  intros uri params order frag H. unfold redirect_location, redirect_location_order.
  destruct (parse_request_uri uri) as [u|]; [|done]. cbv zeta. rewrite !fold_vadd_pairs.
  destruct frag; by rewrite (add_params_order _ params order (map_to_list params)) by done.
Qed.

(** ** Header folds *)

Definition set_headers (w : rw) (order : list (string * string)) : rw :=
  fold_left (fun w kv => header_set w (fst kv) (snd kv)) order w.

Lemma set_headers_sent w order : rw_sent (set_headers w order) = rw_sent w /\ rw_body (set_headers w order) = rw_body w.
Proof. revert w. induction order as [|kv order IH]; intros w; [done|]. cbn. unfold set_headers in IH. destruct (IH (header_set w kv.1 kv.2)) as [-> ->]. done. Qed.

Lemma header_set_lookup w k v j :
  rw_header (header_set w k v) !! j = if decide (canonical_key k = j) then Some [v] else rw_header w !! j.
Proof.
  unfold header_set, headers. cbn. destruct (decide _) as [->|H]; [by rewrite lookup_insert|by rewrite lookup_insert_ne].
Qed.

Lemma set_headers_lookup w order k l :
  (forall a b, In a order -> In b order -> canonical_key (fst a) = canonical_key (fst b) -> a = b) ->
  rw_header (set_headers w order) !! k = Some l <->
  (exists kv, In kv order /\ canonical_key (fst kv) = k /\ l = [snd kv]) \/
  (rw_header w !! k = Some l /\ forall kv, In kv order -> canonical_key (fst kv) <> k).
Proof.
  intros Hd. unfold set_headers. revert w Hd. induction order as [|kv order IH]; intros w Hd.
  - cbn. split; [intros H; right; split; [done|intros ? []]|intros [(? & [] & _)|[H _]]; done].
  - cbn [fold_left]. rewrite IH by (intros a b Ha Hb; apply Hd; by right). clear IH.
    rewrite header_set_lookup. split.
    + intros [(kv' & H1 & H2 & H3)|[H1 H2]].
      * left. exists kv'. split; [by right|done].
      * destruct (decide (canonical_key kv.1 = k)) as [Hk|Hk].
        -- left. exists kv. split; [by left|]. split; [done|]. by injection H1.
        -- right. split; [done|]. intros kv' [->|H]; auto.
    + intros [(kv' & [->|H1] & H2 & H3)|[H1 H2]].
      * rewrite decide_True by done.
        destruct (In_dec (fun a b : string * string => decide (a = b)) kv' order) as [Hi|Hi].
        -- left. by exists kv'.
        -- right. split; [congruence|]. intros kv2 Hk2 E. apply Hi.
           rewrite (Hd kv' kv2); [done|by left|by right|congruence].
      * left. by exists kv'.
      * right. rewrite decide_False by (apply H2; by left). split; [done|].
        intros kv' H. apply H2. by right.
Qed.

Lemma order_distinct e order : distinct_headers e -> order ≡ₚ map_to_list (e_headers e) ->
  forall a b, In a order -> In b order -> canonical_key (fst a) = canonical_key (fst b) -> a = b.
Proof.
  intros Hd Hp [a x] [b y] Ha Hb E. cbn in E.
  rewrite <- elem_of_list_In, Hp, elem_of_map_to_list in Ha.
  rewrite <- elem_of_list_In, Hp, elem_of_map_to_list in Hb.
  assert (a = b) as -> by (apply Hd; eauto). congruence.
Qed.

Lemma rw_eq w1 w2 : rw_header w1 = rw_header w2 -> rw_sent w1 = rw_sent w2 -> rw_body w1 = rw_body w2 -> w1 = w2.
Proof. destruct w1, w2. cbn. congruence. Qed.

Lemma set_headers_order w e order : distinct_headers e -> order ≡ₚ map_to_list (e_headers e) ->
  set_headers w order = set_headers w (map_to_list (e_headers e)).
Proof.
  intros Hd Hp. apply rw_eq.
  - apply (map_eq (M:=gmap string) (A:=list string)). intros k.
    apply option_eq. intros l.
    change (@lookup string (list string) (gmap string (list string)) _ k (rw_header (set_headers w order)))
      with (rw_header (set_headers w order) !! k).
    rewrite (set_headers_lookup w order) by (by eapply order_distinct).
    rewrite (set_headers_lookup w (map_to_list _)) by (by eapply order_distinct).
    assert (Hin : forall kv, In kv order <-> In kv (map_to_list (e_headers e))).
    { intros kv. rewrite <- !elem_of_list_In. by rewrite Hp. }
    setoid_rewrite Hin. done.
  - by rewrite !(proj1 (set_headers_sent _ _)).
  - by rewrite !(proj2 (set_headers_sent _ _)).
Qed.

Lemma c12_headers : forall w e order, distinct_headers e -> order ≡ₚ map_to_list (e_headers e) ->
  write_error_order w e order = write_error w (GErr e).
Proof.
  intros w e order Hd Hp. unfold write_error, write_error_order.
  change (fold_left _ order w) with (set_headers w order).
  change (fold_left _ (map_to_list (e_headers e)) w) with (set_headers w (map_to_list (e_headers e))).
  by rewrite (set_headers_order w e order).
Qed.

(** ** The parameter map of an error *)

Lemma put_lookup k v m j : put k v m !! j = if decide (k = j /\ v <> "") then Some v else m !! j.
Proof.
  unfold put. destruct (seqb v "") eqn:E.
  - apply seqb_true in E as ->. rewrite decide_False by tauto. done.
  - apply seqb_false in E. destruct (decide (k = j)) as [->|H].
    + rewrite decide_True by done. by rewrite lookup_insert.
    + rewrite decide_False by tauto. by rewrite lookup_insert_ne.
Qed.

Lemma error_map_spec e k v : error_map e !! k = Some v <-> error_param e k v.
Proof.
  unfold error_map, error_param.
  set (m1 := put "state" _ _).
  assert (H1 : m1 !! k = Some v <->
     (k = "error" /\ v = e_name e /\ v <> "") \/
     (k = "error_description" /\ v = e_description e /\ v <> "") \/ (k = "state" /\ v = e_state e /\ v <> "")).
  { unfold m1. rewrite !put_lookup. 
    destruct (decide ("state" = k /\ e_state e <> "")) as [[<- Hn]|Hn];
    [|destruct (decide ("error_description" = k /\ e_description e <> "")) as [[<- Hn2]|Hn2];
    [|destruct (decide ("error" = k /\ e_name e <> "")) as [[<- Hn3]|Hn3]]].
    - split; [intros [= <-]; auto 10|]. intros [(?&?&?)|[(?&?&?)|(_ & -> & _)]]; done.
    - split; [intros [= <-]; auto 10|]. intros [(?&?&?)|[(_ & -> & _)|(?&?&?)]]; done.
    - split; [intros [= <-]; auto 10|]. intros [(_ & -> & _)|[(?&?&?)|(?&?&?)]]; done.
    - rewrite lookup_empty. split; [done|]. intros [(-> & -> & ?)|[(-> & -> & ?)|(-> & -> & ?)]]; exfalso; tauto. }
  set (m2 := if Nat.ltb _ _ then _ else _).
  assert (H2 : m2 !! k = Some v <->
     m1 !! k = Some v \/ (k = "scope" /\ items (e_scope e) <> [] /\ v = join " " (items (e_scope e)))).
  { unfold m2. destruct (items (e_scope e)) as [|i l] eqn:Ei.
    - cbn. split; [auto|]. intros [H|(_ & H & _)]; done.
    - change (Nat.ltb 0 (length (i :: l))) with true. cbv iota.
      destruct (decide ("scope" = k)) as [<-|Hk].
      + rewrite lookup_insert. unfold scope_string. rewrite Ei. split.
        * intros [= <-]. right. done.
        * intros [H|(_ & _ & ->)]; [|done]. apply H1 in H. exfalso. destruct H as [(?&?&?)|[(?&?&?)|(?&?&?)]]; done.
      + rewrite lookup_insert_ne by done. split; [auto|]. intros [H|(-> & _)]; done. }
  rewrite !put_lookup.
  destruct (decide ("realm" = k /\ e_realm e <> "")) as [[<- Hn]|Hn];
    [|destruct (decide ("error_uri" = k /\ e_uri e <> "")) as [[<- Hn2]|Hn2]].
  - split; [intros [= <-]; auto 10|].
    intros [(?&?&?)|[(?&?&?)|[(?&?&?)|[(_ & -> & _)|[(?&?&?)|(?&?&?)]]]]]; done.
  - split; [intros [= <-]; auto 10|].
    intros [(?&?&?)|[(?&?&?)|[(_ & -> & _)|[(?&?&?)|[(?&?&?)|(?&?&?)]]]]]; done.
  - rewrite H2, H1. split.
    + intros [[?|[?|?]]|?]; auto 10.
    + intros [?|[?|[(-> & -> & ?)|[(-> & -> & ?)|[?|?]]]]]; auto 10; exfalso; tauto.
Qed.

(** ** C13 *)

Lemma quotable_contains s : quotable s <-> contains dq_char s = false /\ contains bs_char s = false.
Proof.
  unfold quotable. rewrite <- !not_has_byte.
  assert (H : forall c, In c (list_ascii_of_string s) <-> has_byte c s).
  { intros c. rewrite has_byte_contains. induction s as [|a s IH]; cbn; [done|].
    rewrite orb_true_iff, Ascii.eqb_eq. tauto. }
  by rewrite !H.
Qed.

Lemma read_quoted_plain v rest : contains dq_char v = false -> contains bs_char v = false ->
  read_quoted (v +:+ String dq_char rest) = Some (v, rest).
Proof.
  induction v as [|a v IH]; [done|]. cbn [contains]. rewrite !orb_false_iff. intros [H1 H2] [H3 H4].
  rewrite app_cons_s. cbn [read_quoted]. by rewrite H1, H3, IH.
Qed.
Lemma read_name_plain k rest : contains "=" k = false ->
  read_name (k +:+ String "=" rest) = Some (k, rest).
Proof.
  induction k as [|a k IH]; [done|]. cbn [contains]. rewrite orb_false_iff. intros [H1 H2].
  rewrite app_cons_s. cbn [read_name]. by rewrite H1, IH.
Qed.

Definition plain_pair (kv : string * string) : Prop :=
  contains "=" (fst kv) = false /\
  (exists a r, fst kv = String a r /\ Ascii.eqb a "," || Ascii.eqb a " " = false) /\ quotable (snd kv).

Lemma read_params_ok ps fuel : Forall plain_pair ps -> length ps < fuel ->
  read_auth_params fuel (join ", " (map param ps)) = Some ps.
Proof.
  intros HF. revert fuel. induction HF as [|[k v] ps (Hk & (a & r & Ha & Hsep) & Hv) HF IH]; intros fuel Hf.
  { by destruct fuel; [cbn in Hf; lia|]. }
  cbn in Hk, Ha, Hv. apply quotable_contains in Hv as [Hv1 Hv2].
  destruct fuel as [|fuel]; [cbn in Hf; lia|].
  assert (Hone : forall tail, read_auth_params (S fuel) (param (k, v) +:+ tail) =
    match read_auth_params fuel (skip_separator tail) with Some l => Some ((k, v) :: l) | None => None end).
  { intros tail. unfold param. cbn [fst snd]. snorm. unfold str1. snorm.
    change ("=" +:+ String dquote (v +:+ String dquote tail))
      with (String "=" (String dquote (v +:+ String dquote tail))).
    rewrite Ha. rewrite app_cons_s. cbn [read_auth_params].
    rewrite <- app_cons_s, <- Ha, read_name_plain by done.
    change (Ascii.eqb dquote dq_char) with true. cbv iota.
    change (String dquote tail) with (String dq_char tail).
    by rewrite (read_quoted_plain v tail). }
  destruct ps as [|p2 ps].
  - cbn [map]. rewrite join_one, <- (app_nil_r_s (param (k, v))), Hone. cbn [skip_separator].
    cbn in Hf. destruct fuel; [lia|]. done.
  - cbn [map]. rewrite join_cons, Hone.
    change (", " +:+ join ", " (param p2 :: map param ps)) with (String "," (String " " (join ", " (map param (p2 :: ps))))).
    cbn [skip_separator]. change (Ascii.eqb "," "," || Ascii.eqb "," " ") with true.
    change (Ascii.eqb " " "," || Ascii.eqb " " " ") with true. cbv iota.
    assert (Hskip : skip_separator (join ", " (map param (p2 :: ps))) = join ", " (map param (p2 :: ps))).
    { inversion HF as [|? ? (_ & (a2 & r2 & Ha2 & Hs2) & _) _]; subst.
      destruct p2 as [k2 v2]. cbn in Ha2. subst k2.
      assert (Hh : exists t, join ", " (map param ((String a2 r2, v2) :: ps)) = String a2 t).
      { cbn [map]. destruct (map param ps) as [|y l].
        - rewrite join_one. unfold param. cbn [fst snd]. snorm. by eexists.
        - rewrite join_cons. unfold param at 1. cbn [fst snd]. snorm. by eexists. }
      destruct Hh as [t ->]. cbn [skip_separator]. by rewrite Hs2. }
    rewrite Hskip. rewrite IH by (cbn in *; lia). done.
Qed.

Lemma sorted_params (order : list (string * string)) :
  exists ps, ps ≡ₚ order /\ params_order order = join ", " (map param ps).
Proof.
  unfold params_order. pose proof (sort_strings_perm (map param order)) as H.
  destruct (Permutation_map_inv _ _ H) as (ps & Hps & Hp). exists ps. rewrite Hps. split; [by symmetry|done].
Qed.

Lemma error_param_key e k v : error_param e k v ->
  contains "=" k = false /\ (exists a r, k = String a r /\ Ascii.eqb a "," || Ascii.eqb a " " = false).
Proof.
  intros [(-> & _)|[(-> & _)|[(-> & _)|[(-> & _)|[(-> & _)|(-> & _)]]]]]; (split; [reflexivity|by do 2 eexists]).
Qed.

Lemma length_join_params ps : length ps <= slen (join ", " (map param ps)).
Proof.
  assert (Hp : forall kv, 1 <= slen (param kv)).
  { intros [k v]. unfold param. rewrite !slen_app. cbn. lia. }
  induction ps as [|kv ps IH]; [cbn; lia|]. cbn [map]. pose proof (Hp kv). destruct ps as [|p2 ps].
  - rewrite join_one. cbn [length]. lia.
  - cbn [map] in *. rewrite join_cons, !slen_app. cbn [length] in *. lia.
Qed.

Lemma error_params_read e : (forall k v, error_param e k v -> quotable v) ->
  exists ps, ps ≡ₚ map_to_list (error_map e) /\
    read_challenge "Bearer" ("Bearer " +:+ error_params e) = Some ps.
Proof.
  intros Hq. destruct (sorted_params (map_to_list (error_map e))) as (ps & Hp & Heq).
  exists ps. split; [done|]. unfold read_challenge, error_params.
  change ("Bearer" +:+ " ") with "Bearer ". rewrite strip_prefix_app, Heq.
  apply read_params_ok; [|pose proof (length_join_params ps); lia].
  apply List.Forall_forall. intros [k v] Hin.
  rewrite <- elem_of_list_In, Hp, elem_of_map_to_list, error_map_spec in Hin.
  destruct (error_param_key _ _ _ Hin) as [H1 H2]. repeat split; try done; by eapply Hq.
Qed.
