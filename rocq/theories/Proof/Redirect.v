(** Redirect targets: C16 and C17. *)
From Verif.Model Require Import Errors.
From Verif.Spec Require Import WireSpec.
From Verif.Proof Require Import StrFacts UrlFacts UrlParse WireFacts.

Lemma s_in_list a s : s_in a s <-> In a (list_ascii_of_string s).
Proof. induction s as [|c s IH]; [done|]. cbn. rewrite IH. done. Qed.
Lemma ascii_text_only s : ascii_text s -> ascii_only s = true.
Proof.
  intros H. apply all_bytes_spec. intros a Ha. apply N.ltb_lt. apply H. by apply s_in_list.
Qed.
Lemma without_contains a s : without a s <-> contains a s = false.
Proof. unfold without. rewrite contains_false. by rewrite s_in_list. Qed.

(** What the parts of a parsed URL are made of. *)
Lemma parse_request_parts raw u a : parse_request_uri raw = Some u -> contains a raw = false ->
  contains a (u_opaque u) = false /\ contains a (u_rawquery u) = false.
Proof.
  intros H Ha. unfold parse_request_uri, parse_url in H.
  destruct (all_bytes (fun c => negb (is_ctl c)) raw) eqn:Ectl; [|done]. cbn [negb] in H.
  destruct (seqb raw "" && true) eqn:Ee; [done|].
  destruct (seqb raw "*") eqn:Es; [by injection H as <-|].
  destruct (getscheme raw) as [[scheme0 rest0]|] eqn:Eg; [|done].
  assert (Hr0 : contains a rest0 = false).
  { destruct (getscheme_cases _ _ _ Eg) as [[_ ->]|[_ ->]]; [done|].
    rewrite !contains_app, !orb_false_iff in Ha. tauto. }
  destruct (match cut "?" rest0 with Some (x, "") => (x, true, "") | Some (x, q) => (x, false, q) | None => (rest0, false, "") end)
    as [[rest fq] rq] eqn:Ecut.
  assert (Hrest : contains a rest = false /\ contains a rq = false).
  { destruct (cut "?" rest0) as [[x q]|] eqn:Ec.
    - apply cut_some in Ec as [-> Hx]. rewrite contains_app, orb_false_iff in Hr0. destruct Hr0 as [H1 H2].
      cbn [contains] in H2. apply orb_false_iff in H2 as [_ H2].
      destruct q; injection Ecut as <- _ <-; done.
    - injection Ecut as <- _ <-. done. }
  destruct Hrest as [Hrest Hrq].
  repeat match type of H with
    | (if ?c then _ else _) = _ => destruct c
    | match ?x with _ => _ end = _ => destruct x as [?|]
    | (let '(_, _) := ?x in _) = _ => destruct x as [? ?]
    | None = _ => done
    | Some _ = Some _ => injection H as <-
    end; try done.
  all: repeat match type of H with
    | match ?x with _ => _ end = _ => destruct x as [?|]
    | (let '(_, _) := ?x in _) = _ => destruct x as [? ?]
    | None = _ => done
    | Some _ = Some _ => injection H as <-
    end; try done.
  all: repeat match type of H with
    | match ?x with _ => _ end = _ => destruct x
    | None = _ => done
    | Some _ = Some _ => injection H as <-
    end; try done.
Qed.
Lemma parse_request_fragment raw u : parse_request_uri raw = Some u -> u_fragment u = "" /\ u_rawfragment u = "".
Proof.
  intros H. unfold parse_request_uri, parse_url in H.
  repeat match type of H with
    | (if ?c then _ else _) = _ => destruct c
    | match ?x with _ => _ end = _ => destruct x
    | None = _ => done
    | Some _ = Some _ => injection H as <-
    end; try done.
Qed.
Lemma parse_request_scheme raw u : parse_request_uri raw = Some u -> u_scheme u = "" \/ scheme_ok (u_scheme u).
Proof.
  intros H. unfold parse_request_uri, parse_url in H.
  destruct (negb (all_bytes (fun c => negb (is_ctl c)) raw)) eqn:Ectl; [done|].
  destruct (seqb raw "" && true) eqn:Ee; [done|].
  destruct (seqb raw "*") eqn:Es; [injection H as <-; by left|].
  destruct (getscheme raw) as [[scheme0 rest0]|] eqn:Eg; [|done].
  assert (Hs : to_lower scheme0 = "" \/ scheme_ok (to_lower scheme0)).
  { destruct (getscheme_cases _ _ _ Eg) as [[-> _]|[Hs _]]; [by left|]. right. by apply scheme_ok_lower. }
  repeat match type of H with
    | (if ?c then _ else _) = _ => destruct c
    | match ?x with _ => _ end = _ => destruct x
    | None = _ => done
    | Some _ = Some _ => injection H as <-
    end; try done.
Qed.

Lemma escaped_path_hash u : contains "#" (escaped_path u) = false.
Proof.
  unfold escaped_path, escaped_hint.
  destruct (negb (seqb (u_rawpath u) "") && valid_encoded EncPath (u_rawpath u)) eqn:E.
  - apply andb_true_iff in E as [_ E].
    assert (contains "#" (u_rawpath u) = false) by (eapply all_bytes_not_contains; [exact E|vm_compute; reflexivity]).
    destruct (unescape EncPath (u_rawpath u)); [destruct (seqb s (u_path u)); [done|]|];
    (destruct (seqb (u_path u) "*"); [done|]); apply escape_never; intros c; apply negb_true_iff; revert c; apply ascii_forall; vm_compute; reflexivity.
  - destruct (seqb (u_path u) "*"); [done|]. apply escape_never; intros c; apply negb_true_iff; revert c; apply ascii_forall; vm_compute; reflexivity.
Qed.
Lemma url_base_hash u : u_scheme u = "" \/ scheme_ok (u_scheme u) -> contains "#" (u_opaque u) = false ->
  contains "#" (url_base u) = false.
Proof.
  intros Hs Ho.
  assert (Hsch : contains "#" (if seqb (u_scheme u) "" then "" else u_scheme u +:+ ":") = false).
  { destruct (seqb (u_scheme u) "") eqn:E; [done|]. destruct Hs as [->|Hs]; [done|]. apply scheme_chars in Hs as [Hs _].
    rewrite contains_app. rewrite (all_bytes_not_contains _ "#" _ Hs) by done. done. }
  unfold url_base. destruct (negb (seqb (u_opaque u) "")); [by rewrite contains_app, Hsch, Ho|].
  rewrite !contains_app, Hsch, escaped_path_hash, !orb_false_r.
  pose proof (auth_text_chars (u_user u) (u_host u)) as (_ & _ & Hat & _). unfold auth_text in Hat.
  match goal with |- context [contains "#" (if ?c then _ else _)] => destruct c end.
  - rewrite contains_app. fold (auth_text (u_user u) (u_host u)) in *.
    match goal with |- context [contains "#" (if ?c then "//" else "")] => destruct c end;
    unfold auth_text in *; rewrite Hat; destruct (escaped_path u) as [|c r]; cbn [orb];
    repeat (match goal with |- context [if ?c then _ else _] => destruct c end; try reflexivity).
  - destruct (escaped_path u) as [|c r]; cbn [orb];
    repeat (match goal with |- context [if ?c then _ else _] => destruct c end; try reflexivity).
Qed.

(** ** C16 *)

Lemma form_no_ctl q : all_bytes form_char q = true -> no_ctl q = true.
Proof.
  apply all_bytes_impl. intros c Hc.
  assert (HH : negb (form_char c) || negb (is_ctl c) = true) by (clear; revert c; apply ascii_forall; vm_compute; reflexivity).
  by rewrite Hc in HH.
Qed.
Lemma form_no_hash q : all_bytes form_char q = true -> contains "#" q = false.
Proof. intros H. eapply all_bytes_not_contains; [exact H|]. vm_compute. reflexivity. Qed.

Lemma params_decode (q : values) params :
  form_decodes (encode_values (fold_left (fun v (kv : string * string) => vadd v kv.1 kv.2) (map_to_list params) q))
    (fun k => values_of q k ++ param_values params k).
Proof.
  eexists. split; [apply parse_encode|]. intros k. unfold values_of at 1. rewrite drop_empty_lookup.
  rewrite fold_vadd_pairs, (add_params_lookup q params) by done. unfold values_of, param_values.
  destruct (params !! k) as [x|]; [|rewrite app_nil_r; by destruct (q !! k) as [[]|]].
  by destruct (default [] (q !! k)).
Qed.

Lemma url_string_query u q : u_fragment u = "" ->
  url_string (set_rawquery u q) = url_base u +:+ query_tail (u_forcequery u) q.
Proof.
  intros Hf. unfold url_string. cbn [set_rawquery u_forcequery u_rawquery u_fragment]. rewrite Hf.
  change (seqb "" "") with true. cbn iota. by rewrite app_nil_r_s.
Qed.

Lemma c16_query : forall uri u params,
  parse_request_uri uri = Some u -> ascii_text uri -> uri <> "*" ->
  exists loc u',
    redirect_location uri params false = Some loc /\
    parse_request_uri loc = Some u' /\ same_target u u' /\
    form_decodes (u_rawquery u') (fun k => values_of (url_query u) k ++ param_values params k).
Proof.
  intros uri u params Hp Ha Hs. unfold redirect_location, redirect_location_order. rewrite Hp.
  eexists.
  destruct (shape_reparse u (encode_values (fold_left (fun v (kv : string * string) => vadd v kv.1 kv.2)
     (map_to_list params) (url_query u)))) as (u' & H1 & H2 & H3).
  - eapply parse_shape; [done..|]. by apply ascii_text_only.
  - apply form_no_ctl, encode_values_chars.
  - exists u'. split; [reflexivity|]. split; [exact H1|]. split; [exact H2|]. rewrite H3. apply params_decode.
Qed.

Lemma c16_no_fragment : forall uri u params loc,
  parse_request_uri uri = Some u -> without "#" uri ->
  redirect_location uri params false = Some loc -> without "#" loc.
Proof.
  intros uri u params loc Hp Hw. unfold redirect_location, redirect_location_order. rewrite Hp.
  intros [= <-]. apply without_contains. apply without_contains in Hw.
  destruct (parse_request_parts uri u "#" Hp Hw) as [Ho _].
  rewrite url_string_query by (by eapply parse_request_fragment).
  rewrite contains_app, url_base_hash, orb_false_l by (done || by eapply parse_request_scheme).
  unfold query_tail. match goal with |- context [if ?c then _ else _] => destruct c end; [|done].
  rewrite contains_app, (form_no_hash (encode_values _)) by apply encode_values_chars. done.
Qed.

Lemma c16_star : forall params, params <> ∅ -> exists q,
  redirect_location "*" params false = Some ("*?" +:+ q) /\ form_decodes q (param_values params).
Proof.
  intros params Hne. unfold redirect_location, redirect_location_order.
  set (q := encode_values (fold_left (fun v (kv : string * string) => vadd v kv.1 kv.2) (map_to_list params) ∅)).
  assert (Hd : form_decodes q (param_values params)).
  { destruct (params_decode ∅ params) as (v & Hv1 & Hv2). exists v. split; [exact Hv1|]. intros k. rewrite Hv2.
    unfold values_of. by rewrite values_empty. }
  exists q. split; [|done].
  assert (parse_request_uri "*" = Some (mk_url "" "" None "" "*" "" false "")) as -> by reflexivity.
  f_equal. cbv zeta. change (url_query (mk_url "" "" None "" "*" "" false "")) with (∅ : values). fold q.
  rewrite url_string_query by done.
  change (url_base (mk_url "" "" None "" "*" "" false "")) with "*". unfold query_tail. cbn [u_forcequery mk_url orb].
  destruct (seqb q "") eqn:E; cbn [negb]; [|reflexivity]. exfalso. apply Hne. apply seqb_true in E. rewrite E in Hd.
  destruct Hd as (v & Hv1 & Hv2). change (parse_query "") with (∅ : values, true) in Hv1. injection Hv1 as <-.
  apply map_eq. intros k. specialize (Hv2 k). unfold values_of, param_values in Hv2. rewrite values_empty in Hv2.
  rewrite lookup_empty. by destruct (params !! k).
Qed.

(** ** C17 *)

Lemma escape_fragment_form q : all_bytes form_char q = true -> contains "#" (escape EncFragment q) = false.
Proof. intros _. apply escape_never; intros c; apply negb_true_iff; revert c; apply ascii_forall; vm_compute; reflexivity. Qed.

Lemma set_rawquery_id u : set_rawquery u (u_rawquery u) = u.
Proof. by destruct u. Qed.

(** The Location of a fragment redirect. *)
Lemma fragment_location uri u params :
  parse_request_uri uri = Some u -> without "#" uri ->
  let q := encode_values (fold_left (fun v (kv : string * string) => vadd v kv.1 kv.2) (map_to_list params) ∅) in
  exists loc, redirect_location uri params true = Some loc /\
    before_fragment loc = url_string u /\ fragment_of loc = escape EncFragment q.
Proof.
  intros Hp Hw q. unfold redirect_location, redirect_location_order. rewrite Hp.
  eexists. split; [reflexivity|]. cbv zeta. fold q.
  destruct (parse_request_fragment uri u Hp) as [Hf Hrf].
  apply without_contains in Hw. destruct (parse_request_parts uri u "#" Hp Hw) as [Ho Hq].
  assert (Hu : url_string u = url_base u +:+ query_tail (u_forcequery u) (u_rawquery u)).
  { rewrite <- (set_rawquery_id u) at 1. by apply url_string_query. }
  assert (Hb : url_base (set_fragment_field u q) = url_base u) by reflexivity.
  assert (Hs : contains "#" (url_string u) = false).
  { rewrite Hu, contains_app, url_base_hash by (done || by eapply parse_request_scheme).
    cbn [orb]. unfold query_tail. destruct (u_forcequery u || negb (seqb (u_rawquery u) "")); [|done]. by rewrite contains_app, Hq. }
  assert (HL : url_string (set_fragment_field u q) = url_string u +:+ (if seqb q "" then "" else "#" +:+ escape EncFragment q)).
  { unfold url_string at 1. rewrite Hb. cbn [set_fragment_field u_forcequery u_rawquery u_fragment].
    change (if u_forcequery u || negb (seqb (u_rawquery u) "") then "?" +:+ u_rawquery u else "")
      with (query_tail (u_forcequery u) (u_rawquery u)).
    rewrite Hu. snorm. do 2 f_equal. unfold escaped_fragment, escaped_hint.
    cbn [set_fragment_field u_rawfragment u_fragment]. rewrite Hrf. done. }
  rewrite HL. unfold before_fragment, fragment_of. destruct (seqb q "") eqn:E.
  - rewrite app_nil_r_s. apply seqb_true in E. rewrite E.
    destruct (cut "#" (url_string u)) as [[]|] eqn:Ec; [|done]. apply cut_none in Hs. congruence.
  - change ("#" +:+ escape EncFragment q) with (String "#" (escape EncFragment q)). by rewrite cut_app.
Qed.

Lemma c17_twice : forall uri u params,
  parse_request_uri uri = Some u -> without "#" uri ->
  exists loc t,
    redirect_location uri params true = Some loc /\
    unescape EncFragment (fragment_of loc) = Some t /\ form_decodes t (param_values params).
Proof.
  intros uri u params Hp Hw. destruct (fragment_location uri u params Hp Hw) as (loc & H1 & _ & H3).
  exists loc. eexists. split; [done|]. split; [rewrite H3; by apply unescape_escape|].
  destruct (params_decode ∅ params) as (v & Hv1 & Hv2). exists v. split; [exact Hv1|]. intros k. rewrite Hv2.
  unfold values_of. by rewrite values_empty.
Qed.

Lemma c17_target : forall uri u params,
  parse_request_uri uri = Some u -> ascii_text uri -> uri <> "*" -> without "#" uri ->
  exists loc u',
    redirect_location uri params true = Some loc /\
    parse_request_uri (before_fragment loc) = Some u' /\ same_target u u' /\ u_rawquery u' = u_rawquery u.
Proof.
  intros uri u params Hp Ha Hs Hw. destruct (fragment_location uri u params Hp Hw) as (loc & H1 & H2 & _).
  assert (Hctl : no_ctl (u_rawquery u) = true).
  { apply all_bytes_spec. intros a Hin. destruct (is_ctl a) eqn:E; [|done]. exfalso.
    assert (Hn : contains a uri = false).
    { apply contains_false. intros Hin'. unfold parse_request_uri, parse_url in Hp.
      destruct (all_bytes (fun c => negb (is_ctl c)) uri) eqn:Ectl; [|done].
      rewrite all_bytes_spec in Ectl. specialize (Ectl a Hin'). by rewrite E in Ectl. }
    destruct (parse_request_parts uri u a Hp Hn) as [_ Hq]. by apply contains_false in Hq. }
  destruct (shape_reparse u (u_rawquery u)) as (u' & R1 & R2 & R3).
  - eapply parse_shape; [done..|]. by apply ascii_text_only.
  - done.
  - rewrite set_rawquery_id in R1. exists loc, u'. by rewrite H2.
Qed.

Lemma escape_fragment_id q : all_bytes form_char q = true -> contains "%" q = false -> escape EncFragment q = q.
Proof.
  unfold escape. induction q as [|c q IH]; [done|]. cbn [all_bytes contains flat_map_bytes].
  rewrite andb_true_iff, orb_false_iff. intros [Hc Hq] [Hp Hn]. rewrite IH by done.
  assert (HH : negb (form_char c) || Ascii.eqb c "%" || seqb (escape_byte EncFragment c) (str1 c) = true)
    by (clear; revert c; apply ascii_forall; vm_compute; reflexivity).
  rewrite Hc, Hp in HH. apply seqb_true in HH. rewrite HH. done.
Qed.
Lemma plain_char_escape a : plain_char a -> contains "%" (escape_byte EncQuery a) = false.
Proof.
  intros H. unfold plain_char in H. change (N_of_ascii a) with (ord a) in H.
  assert (HH : ((48 <=? ord a) && (ord a <=? 57) || (65 <=? ord a) && (ord a <=? 90) || (97 <=? ord a) && (ord a <=? 122)
     || Ascii.eqb a "-" || Ascii.eqb a "_" || Ascii.eqb a "." || Ascii.eqb a "~" || Ascii.eqb a " ")%N = true).
  { destruct H as [H|[H|[H|[->|[->|[->|[->| ->]]]]]]]; try reflexivity;
    rewrite !orb_true_iff, !andb_true_iff, !N.leb_le; tauto. }
  assert (HI : negb ((48 <=? ord a) && (ord a <=? 57) || (65 <=? ord a) && (ord a <=? 90) || (97 <=? ord a) && (ord a <=? 122)
     || Ascii.eqb a "-" || Ascii.eqb a "_" || Ascii.eqb a "." || Ascii.eqb a "~" || Ascii.eqb a " ")%N
     || negb (contains "%" (escape_byte EncQuery a)) = true)
    by (clear; revert a; apply ascii_forall; vm_compute; reflexivity).
  rewrite HH in HI. by apply negb_true_iff in HI.
Qed.
Lemma plain_text_escape s : plain_text s -> contains "%" (query_escape s) = false.
Proof.
  unfold query_escape, escape. induction s as [|c s IH]; [done|]. intros H. cbn [flat_map_bytes].
  rewrite contains_app, plain_char_escape, IH; [done|..].
  - intros a Ha. apply H. by right.
  - apply H. by left.
Qed.
Lemma join_not_contains a sep l : contains a sep = false -> Forall (fun x => contains a x = false) l ->
  contains a (join sep l) = false.
Proof.
  intros Hs. induction 1 as [|x l Hx Hl IH]; [done|]. destruct l as [|y l]; [by rewrite join_one|].
  rewrite join_cons, !contains_app, Hx, Hs. exact IH.
Qed.

Lemma c17_partial : forall uri u params,
  parse_request_uri uri = Some u -> without "#" uri ->
  (forall k v, params !! k = Some v -> plain_text k /\ plain_text v) ->
  exists loc,
    redirect_location uri params true = Some loc /\ form_decodes (fragment_of loc) (param_values params).
Proof.
  intros uri u params Hp Hw Hpl. destruct (fragment_location uri u params Hp Hw) as (loc & H1 & _ & H3).
  exists loc. split; [done|]. rewrite H3. rewrite escape_fragment_id; [|apply encode_values_chars|].
  - destruct (params_decode ∅ params) as (v & Hv1 & Hv2). exists v. split; [exact Hv1|]. intros k. rewrite Hv2.
    unfold values_of. by rewrite values_empty.
  - rewrite fold_vadd_pairs.
    destruct (encode_values_pairs (add_pairs ∅ (map_to_list params))) as (keys & _ & ->).
    apply join_not_contains; [done|]. apply Forall_map, Forall_forall. intros [k x] Hin.
    unfold value_pairs in Hin. apply elem_of_list_In, in_flat_map in Hin as (k' & _ & Hin).
    apply in_map_iff in Hin as (x' & [= -> ->] & Hin).
    rewrite (add_params_lookup ∅ params), values_empty in Hin by done.
    destruct (params !! k) as [v|] eqn:E; [|done]. cbn in Hin. destruct Hin as [<-|[]].
    destruct (Hpl k v E) as [Hk Hv]. unfold pair_text. cbn [fst snd].
    rewrite !contains_app, !plain_text_escape by done. done.
Qed.

(** A browser that form-decodes the fragment does not get the parameters. *)
Lemma c17_refuted : exists uri params loc v,
  uri = "https://example.com/cb" /\ params = {[ "state" := "a&b" ]} /\
  redirect_location uri params true = Some loc /\
  parse_query (fragment_of loc) = (v, true) /\
  values_of v "state" = ["a%26b"] /\ ~ form_decodes (fragment_of loc) (param_values params).
Proof.
  do 4 eexists. split; [reflexivity|]. split; [reflexivity|]. split; [vm_compute; reflexivity|].
  split; [vm_compute; reflexivity|]. split; [vm_compute; reflexivity|].
  intros (v & Hv & Hk). specialize (Hk "state"). vm_compute in Hv. injection Hv as <-. vm_compute in Hk. done.
Qed.

(** What form-decoding the fragment gives in general. *)
Lemma plain_byte_spec a : plain_byte a = true <-> plain_char a.
Proof.
  unfold plain_byte, plain_char. cbn [existsb]. rewrite !orb_true_iff, !andb_true_iff, !N.leb_le, !Ascii.eqb_eq.
  split; [intros [[[?|?]|?]|?]; try tauto; intuition discriminate|intuition].
Qed.
Definition percent_byte (a : ascii) : string :=
  if plain_byte a then String a ""
  else String "%" (String (upper_hex (nat_of_ascii a / 16)) (String (upper_hex (nat_of_ascii a mod 16)) "")).
Lemma percent_encoded_flat s : percent_encoded s = flat_map_bytes percent_byte s.
Proof.
  induction s as [|a s IH]; [done|]. cbn [percent_encoded flat_map_bytes]. rewrite IH. unfold percent_byte.
  by destruct (plain_byte a).
Qed.
Lemma escape_twice s : query_escape (percent_encoded s) = escape EncFragment (query_escape s).
Proof.
  rewrite percent_encoded_flat. unfold query_escape. induction s as [|a s IH]; [done|].
  cbn [flat_map_bytes]. rewrite escape_app, IH. change (escape EncQuery (String a s)) with (escape_byte EncQuery a +:+ escape EncQuery s).
  rewrite escape_app. f_equal.
  apply seqb_true. revert a. apply ascii_forall. vm_compute. reflexivity.
Qed.
Lemma percent_encoded_inj s t : percent_encoded s = percent_encoded t -> s = t.
Proof.
  intros H. apply query_escape_inj. assert (E : escape EncFragment (query_escape s) = escape EncFragment (query_escape t)).
  { by rewrite <- !escape_twice, H. }
  apply (f_equal (unescape EncFragment)) in E. rewrite !unescape_escape in E by done. congruence.
Qed.
Lemma percent_encoded_plain s : percent_encoded s = s <-> plain_text s.
Proof.
  split.
  - intros H a Ha. apply plain_byte_spec. destruct (plain_byte a) eqn:E; [done|]. exfalso.
    assert (Hlen : forall t, slen t <= slen (percent_encoded t)).
    { induction t as [|b t IH]; [done|]. cbn. destruct (plain_byte b); cbn; lia. }
    assert (Hlt : forall t, In a (list_ascii_of_string t) -> slen t < slen (percent_encoded t)).
    { induction t as [|b t IH]; [done|]. cbn. intros [->|Ht].
      - rewrite E. cbn. pose proof (Hlen t). lia.
      - specialize (IH Ht). destruct (plain_byte b); cbn; lia. }
    specialize (Hlt s Ha). rewrite H in Hlt. lia.
  - induction s as [|a s IH]; [done|]. intros H. cbn.
    rewrite (proj2 (plain_byte_spec a)) by (apply H; by left). f_equal. apply IH. intros b Hb. apply H. by right.
Qed.

Definition percent_pair (kv : string * string) : string * string := (percent_encoded kv.1, percent_encoded kv.2).
Lemma escape_fragment_pairs ps :
  escape EncFragment (join "&" (map pair_text ps)) = join "&" (map pair_text (map percent_pair ps)).
Proof.
  assert (Hp : forall kv, escape EncFragment (pair_text kv) = pair_text (percent_pair kv)).
  { intros [k x]. unfold pair_text, percent_pair. cbn [fst snd]. by rewrite !escape_app, !escape_twice. }
  induction ps as [|kv ps IH]; [done|]. cbn [map]. destruct ps as [|kv' ps].
  - cbn [map]. rewrite !join_one. apply Hp.
  - cbn [map] in *. rewrite !join_cons, !escape_app, Hp, IH. done.
Qed.
Lemma vals_percent k ps : vals (percent_encoded k) (map percent_pair ps) = map percent_encoded (vals k ps).
Proof.
  unfold vals. induction ps as [|[j x] ps IH]; [done|]. cbn [map List.filter percent_pair fst snd].
  assert (seqb (percent_encoded j) (percent_encoded k) = seqb j k) as ->.
  { destruct (seqb j k) eqn:E.
    - apply seqb_true in E as ->. apply seqb_refl.
    - apply seqb_false in E. apply seqb_false. intros H. by apply percent_encoded_inj in H. }
  destruct (seqb j k); cbn [map snd]; [f_equal|]; exact IH.
Qed.

Lemma c17_exact : forall uri u params,
  parse_request_uri uri = Some u -> without "#" uri ->
  exists loc v,
    redirect_location uri params true = Some loc /\ parse_query (fragment_of loc) = (v, true) /\
    (forall k, values_of v (percent_encoded k) = map percent_encoded (param_values params k)) /\
    (forall k, values_of v k <> [] -> exists j, k = percent_encoded j).
Proof.
  intros uri u params Hp Hw. destruct (fragment_location uri u params Hp Hw) as (loc & H1 & _ & H3).
  rewrite fold_vadd_pairs in H3. set (q := add_pairs ∅ (map_to_list params)) in *.
  destruct (encode_values_pairs q) as (keys & Hk & Heq).
  exists loc, (add_pairs ∅ (map percent_pair (value_pairs q keys))). split; [done|].
  split; [rewrite H3, Heq, escape_fragment_pairs; apply parse_query_pairs|].
  assert (Hv : forall k, vals k (value_pairs q keys) = param_values params k).
  { intros k. rewrite vals_value_pairs.
    - assert (Hq : q !! k = match params !! k with Some x => Some [x] | None => None end).
      { unfold q. rewrite (add_params_lookup ∅ params), values_empty by done. by destruct (params !! k). }
      unfold param_values. destruct (decide (k ∈ keys)) as [Hin|Hin].
      + rewrite Hq. by destruct (params !! k).
      + destruct (params !! k) as [x|] eqn:E; [|done]. exfalso. apply Hin.
        rewrite Hk. apply elem_of_list_In, map_fst_to_list. rewrite Hq. by eexists.
    - rewrite Hk. apply NoDup_fst_map_to_list. }
  split.
  - intros k. unfold values_of. rewrite add_pairs_lookup, vals_percent, Hv, values_empty. unfold param_values.
    by destruct (params !! k).
  - intros k Hne. unfold values_of in Hne. rewrite add_pairs_lookup, values_empty in Hne.
    destruct (vals k (map percent_pair (value_pairs q keys))) as [|x l] eqn:E; [done|].
    assert (Hin : In x (vals k (map percent_pair (value_pairs q keys)))) by (rewrite E; by left).
    unfold vals in Hin. apply in_map_iff in Hin as ([k' x'] & _ & Hin). apply filter_In in Hin as [Hin Hs].
    apply in_map_iff in Hin as ([j y] & [= <- <-] & _). cbn in Hs. apply seqb_true in Hs as <-. by exists j.
Qed.
