(** Percent-encoding and form encoding. *)
From Verif.Model Require Import GoStr Url.
From Verif.Proof Require Import StrFacts.
From Coq Require Import ZifyBool ZifyNat ZifyN.
Ltac Zify.zify_post_hook ::= Z.div_mod_to_equations.

(** ** Escaping one byte *)

Definition plain_mode (m : mode) : bool :=
  match m with EncPath | EncUserPassword | EncQuery | EncFragment => true | _ => false end.

Lemma unhex_hex n : (n < 16)%N -> unhex (hex_char n) = Some n.
Proof.
  intros H. assert (HB : forall n, (n < N.of_nat 16)%N ->
    (match unhex (hex_char n) with Some k => N.eqb k n | None => false end) = true).
  { apply N_forall. vm_compute. reflexivity. }
  specialize (HB n H). destruct (unhex (hex_char n)); [|done]. apply N.eqb_eq in HB. congruence.
Qed.

Lemma escape_byte_cases m c :
  (mode_eqb m EncQuery = true /\ c = " "%char /\ escape_byte m c = "+") \/
  (should_escape m c = true /\
     escape_byte m c = String "%" (String (hex_char (ord c / 16)) (str1 (hex_char (ord c mod 16))))) \/
  (should_escape m c = false /\ escape_byte m c = str1 c /\
     c <> "%"%char /\ (mode_eqb m EncQuery = true -> c <> "+"%char /\ c <> " "%char)).
Proof.
  unfold escape_byte. destruct (mode_eqb m EncQuery && Ascii.eqb c " ") eqn:E.
  - left. apply andb_true_iff in E as [-> E]. apply Ascii.eqb_eq in E. auto.
  - right. destruct (should_escape m c) eqn:Es; [left; auto|]. right. split; [done|]. split; [done|].
    split.
    + intros ->. by destruct m.
    + intros Hm. rewrite Hm in E. cbn in E. apply Ascii.eqb_neq in E. split; [|done].
      intros ->. by destruct m.
Qed.

Lemma unescape_byte m c r : plain_mode m = true ->
  unescape m (escape_byte m c +:+ r) =
  match unescape m r with Some t => Some (String c t) | None => None end.
Proof.
  intros Hm. destruct (escape_byte_cases m c) as [(Hq & -> & ->)|[(Hs & ->)|(Hs & -> & Hp & Hq)]].
  - snorm. cbn [unescape]. rewrite Hq. change (Ascii.eqb "+" "%") with false.
    change (Ascii.eqb "+" "+") with true. done.
  - unfold str1. snorm. cbn [unescape]. change (Ascii.eqb "%" "%") with true. cbv iota.
    pose proof (ord_lt c). rewrite !unhex_hex by lia. cbv zeta.
    replace (mode_eqb m EncHost) with false by (by destruct m).
    replace (mode_eqb m EncZone) with false by (by destruct m). cbn [andb].
    replace (ord c / 16 * 16 + ord c mod 16)%N with (ord c) by lia. by rewrite chr_ord.
  - unfold str1. snorm. cbn [unescape]. apply Ascii.eqb_neq in Hp. rewrite Hp.
    destruct (Ascii.eqb_spec c "+") as [->|Hplus].
    + destruct (mode_eqb m EncQuery); [|done]. by destruct Hq.
    + replace (mode_eqb m EncHost) with false by (by destruct m).
      replace (mode_eqb m EncZone) with false by (by destruct m). done.
Qed.

Lemma unescape_escape_app m s r : plain_mode m = true ->
  unescape m (escape m s +:+ r) = match unescape m r with Some t => Some (s +:+ t) | None => None end.
Proof.
  intros Hm. unfold escape. induction s as [|c s IH].
  - cbn. rewrite app_nil_s. by destruct (unescape m r).
  - cbn [flat_map_bytes]. rewrite app_assoc_s, unescape_byte, IH by done.
    by destruct (unescape m r).
Qed.
Lemma unescape_escape m s : plain_mode m = true -> unescape m (escape m s) = Some s.
Proof.
  intros Hm. rewrite <- (app_nil_r_s (escape m s)), unescape_escape_app by done.
  cbn. by rewrite app_nil_r_s.
Qed.
Lemma query_roundtrip s : query_unescape (query_escape s) = Some s.
Proof. by apply unescape_escape. Qed.
Lemma query_escape_inj s t : query_escape s = query_escape t -> s = t.
Proof. intros H. pose proof (query_roundtrip s). rewrite H, query_roundtrip in H0. congruence. Qed.

(** Characters of an escaped string. *)
Definition query_char (c : ascii) : bool := is_alnum c || is_one_of "-_.~%+" c.
Lemma escape_byte_query_chars c : all_bytes query_char (escape_byte EncQuery c) = true.
Proof.
  revert c. apply ascii_forall. vm_compute. reflexivity.
Qed.
Lemma query_escape_chars s : all_bytes query_char (query_escape s) = true.
Proof. apply all_bytes_flat_map, escape_byte_query_chars. Qed.
Lemma query_escape_not c s : query_char c = false -> contains c (query_escape s) = false.
Proof. intros H. eapply all_bytes_not_contains; [apply query_escape_chars|done]. Qed.
Lemma escape_nil m s : escape m s = "" -> s = "".
Proof.
  destruct s as [|c s]; [done|]. unfold escape. cbn [flat_map_bytes]. intros H.
  apply app_eq_nil in H as [H _]. exfalso.
  destruct (escape_byte_cases m c) as [(_ & _ & E)|[(_ & E)|(_ & E & _)]]; rewrite H in E; discriminate.
Qed.

(** ** Splitting pairs *)

Definition no_sep (s : string) : bool := all_bytes (fun c => negb (is_sep c)) s.
Lemma split_pairs_not s : no_sep s = true -> split_pairs s = [s].
Proof.
  unfold no_sep. induction s as [|a s IH]; [done|]. cbn. rewrite andb_true_iff, negb_true_iff.
  intros [-> H]. by rewrite IH.
Qed.
Lemma split_pairs_app s t : no_sep s = true -> split_pairs (s +:+ String "&" t) = s :: split_pairs t.
Proof.
  unfold no_sep. induction s as [|a s IH]; [done|]. cbn. rewrite andb_true_iff, negb_true_iff.
  intros [Ha H]. rewrite app_cons_s. cbn. rewrite Ha, IH by done. done.
Qed.
Lemma split_pairs_join l : l <> [] -> Forall (fun x => no_sep x = true) l ->
  split_pairs (join "&" l) = l.
Proof.
  induction l as [|x l IH]; [done|]. intros _ HF. inversion HF as [|? ? Hx HF']; subst.
  destruct l as [|y l].
  - rewrite join_one. by apply split_pairs_not.
  - rewrite join_cons. change ("&" +:+ join "&" (y :: l)) with (String "&" (join "&" (y :: l))).
    rewrite split_pairs_app by done. by rewrite IH.
Qed.

(** ** Values *)

(** Add pairs in order. *)
Definition add_pairs (m : values) (ps : list (string * string)) : values :=
  fold_left (fun v kv => vadd v (fst kv) (snd kv)) ps m.

Definition vals (k : string) (ps : list (string * string)) : list string :=
  map snd (List.filter (fun kv => seqb (fst kv) k) ps).

Lemma values_empty (k : string) : (∅ : values) !! k = None.
Proof. unfold values. apply lookup_empty. Qed.
Lemma vadd_lookup m k x j :
  vadd m k x !! j = if seqb k j then Some (default [] (m !! j) ++ [x]) else m !! j.
Proof.
  unfold vadd, values in *. destruct (seqb k j) eqn:E.
  - apply seqb_true in E as ->. rewrite lookup_insert. by destruct (m !! j).
  - apply seqb_false in E. by rewrite lookup_insert_ne.
Qed.

Lemma add_pairs_lookup m ps k :
  add_pairs m ps !! k =
  match vals k ps with
  | [] => m !! k
  | xs => Some (default [] (m !! k) ++ xs)
  end.
Proof.
  unfold add_pairs, vals. revert m. induction ps as [|[j x] ps IH]; intros m; [done|]. cbn [fold_left fst snd].
  rewrite IH, vadd_lookup. cbn [List.filter fst]. destruct (seqb j k) eqn:E.
  - cbn [map snd]. destruct (map snd (List.filter _ ps)) as [|y ys]; [done|].
    cbn [default from_option id]. by rewrite <- app_assoc.
  - done.
Qed.

Definition pair_text (kv : string * string) : string :=
  query_escape (fst kv) +:+ "=" +:+ query_escape (snd kv).

Lemma pair_text_no_sep kv : no_sep (pair_text kv) = true.
Proof.
  assert (H : forall s, no_sep (query_escape s) = true).
  { intros s. eapply all_bytes_impl; [|apply query_escape_chars].
    intros a. assert (HH : (negb (query_char a) || negb (is_sep a)) = true)
      by (revert a; apply ascii_forall; vm_compute; reflexivity).
    intros E. rewrite E in HH. done. }
  unfold pair_text, no_sep in *. rewrite !all_bytes_app, !H. done.
Qed.

Lemma parse_pair_text acc kv :
  parse_pair acc (pair_text kv) = (vadd (fst acc) (fst kv) (snd kv), snd acc).
Proof.
  destruct kv as [k x]. unfold parse_pair, pair_text. cbn [fst snd].
  replace (seqb (query_escape k +:+ "=" +:+ query_escape x) "") with false.
  2:{ symmetry. apply seqb_false. intros H. apply app_eq_nil in H as [_ H]. discriminate. }
  change ("=" +:+ query_escape x) with (String "=" (query_escape x)).
  rewrite cut_app by (by apply query_escape_not).
  by rewrite !query_roundtrip.
Qed.

Lemma parse_pairs_text acc ps :
  fold_left parse_pair (map pair_text ps) acc = (add_pairs (fst acc) ps, snd acc).
Proof.
  revert acc. induction ps as [|kv ps IH]; intros acc; [by destruct acc|].
  cbn [map fold_left]. rewrite parse_pair_text, IH. done.
Qed.

Lemma parse_query_pairs ps : parse_query (join "&" (map pair_text ps)) = (add_pairs ∅ ps, true).
Proof.
  unfold parse_query. destruct ps as [|kv ps]; [done|].
  rewrite split_pairs_join; [|done|].
  - apply parse_pairs_text.
  - apply Forall_map, Forall_forall. intros x _. apply pair_text_no_sep.
Qed.

(** The pairs of a map for a list of keys. *)
Definition value_pairs (v : values) (keys : list string) : list (string * string) :=
  flat_map (fun k => map (fun x => (k, x)) (default [] (v !! k))) keys.

Lemma encode_pairs_text v keys : encode_pairs v keys = map pair_text (value_pairs v keys).
Proof.
  unfold encode_pairs, value_pairs. induction keys as [|k keys IH]; [done|]. cbn [flat_map].
  rewrite map_app, <- IH, map_map. done.
Qed.

Lemma vals_app k ps qs : vals k (ps ++ qs) = vals k ps ++ vals k qs.
Proof. unfold vals. by rewrite List.filter_app, map_app. Qed.
Lemma vals_value_pairs v keys k : NoDup keys ->
  vals k (value_pairs v keys) = if decide (k ∈ keys) then default [] (v !! k) else [].
Proof.
  induction 1 as [|j keys Hj Hnd IH]; [done|]. unfold value_pairs in *. cbn [flat_map].
  rewrite vals_app, IH.
  assert (Hh : vals k (map (fun x => (j, x)) (default [] (v !! j))) =
    if decide (j = k) then default [] (v !! j) else []).
  { unfold vals. induction (default [] (v !! j)) as [|x l IHl]; [by destruct (decide (j = k))|]. cbn [map List.filter fst].
    destruct (seqb j k) eqn:E.
    - apply seqb_true in E. rewrite decide_True in * by done. cbn. by rewrite IHl.
    - apply seqb_false in E. rewrite decide_False in * by done. done. }
  rewrite Hh. destruct (decide (j = k)) as [->|Hne].
  - rewrite (decide_False (P := k ∈ keys)) by done. rewrite (decide_True (P := k ∈ k :: keys)) by apply elem_of_list_here.
    by rewrite app_nil_r.
  - destruct (decide (k ∈ keys)); [rewrite decide_True by (by apply elem_of_list_further)|rewrite decide_False by (rewrite elem_of_cons; intros [|]; done)]; done.
Qed.

Lemma encode_values_pairs v :
  exists keys, keys ≡ₚ map fst (map_to_list v) /\
    encode_values v = join "&" (map pair_text (value_pairs v keys)).
Proof.
  unfold encode_values, encode_values_order.
  exists (sort_strings (map fst (map_to_list v))). split; [apply sort_strings_perm|].
  by rewrite encode_pairs_text.
Qed.

Lemma map_fst_to_list (v : values) k : In k (map fst (map_to_list v)) <-> is_Some (v !! k).
Proof.
  rewrite in_map_iff. split.
  - intros ([k' x] & <- & H). apply elem_of_list_In, elem_of_map_to_list in H. by eexists.
  - intros [x Hx]. exists (k, x). split; [done|]. by apply elem_of_list_In, elem_of_map_to_list.
Qed.

(** What is left of a map of values on the wire: keys without values vanish. *)
Definition drop_empty (v : values) : values :=
  omap (fun l => match l with [] => None | _ => Some l end) v.
Lemma drop_empty_lookup v k : drop_empty v !! k = match v !! k with Some (x :: l) => Some (x :: l) | _ => None end.
Proof. unfold drop_empty, values in *. rewrite lookup_omap. by destruct (v !! k) as [[]|]. Qed.

Theorem parse_encode v : parse_query (encode_values v) = (drop_empty v, true).
Proof.
  destruct (encode_values_pairs v) as (keys & Hp & ->). rewrite parse_query_pairs. f_equal.
  apply map_eq. intros k. rewrite add_pairs_lookup, drop_empty_lookup, values_empty.
  rewrite vals_value_pairs.
  - assert (Hin : k ∈ keys <-> is_Some (v !! k)).
    { rewrite <- map_fst_to_list, <- elem_of_list_In. by rewrite Hp. }
    destruct (decide (k ∈ keys)) as [H|H].
    + apply Hin in H as [l Hl]. rewrite Hl. by destruct l.
    + rewrite Hin in H. destruct (v !! k) eqn:E; [|done]. exfalso. apply H. by eexists.
  - rewrite Hp. apply NoDup_fst_map_to_list.
Qed.

Lemma vget_drop_empty v k : vget (drop_empty v) k = vget v k.
Proof. unfold vget. rewrite drop_empty_lookup. by destruct (v !! k) as [[]|]. Qed.

Lemma encode_values_order_irrelevant v order : order ≡ₚ map fst (map_to_list v) ->
  encode_values_order order v = encode_values v.
Proof. intros H. unfold encode_values, encode_values_order. by rewrite (sort_strings_ext _ _ H). Qed.

(** Characters of an encoded form. *)
Definition form_char (c : ascii) : bool := query_char c || is_one_of "=&" c.
Lemma join_all_bytes p sep l : all_bytes p sep = true -> Forall (fun x => all_bytes p x = true) l ->
  all_bytes p (join sep l) = true.
Proof.
  intros Hs. induction 1 as [|x l Hx Hl IH]; [done|]. destruct l as [|y l]; [done|].
  rewrite join_cons, !all_bytes_app, Hx, Hs, IH. done.
Qed.
Lemma encode_values_chars v : all_bytes form_char (encode_values v) = true.
Proof.
  destruct (encode_values_pairs v) as (keys & _ & ->). apply join_all_bytes; [done|].
  apply Forall_map, Forall_forall. intros kv _. unfold pair_text.
  assert (H : forall s, all_bytes form_char (query_escape s) = true).
  { intros s. eapply all_bytes_impl; [|apply query_escape_chars]. intros a Ha. unfold form_char. by rewrite Ha. }
  rewrite !all_bytes_app, !H. done.
Qed.

(** ** Adding the parameters of a redirect *)

Lemma NoDup_vals (m : gmap string string) order k : order ≡ₚ map_to_list m ->
  vals k order = match m !! k with Some x => [x] | None => [] end.
Proof.
  intros Hp.
  assert (Hnd : NoDup (map fst order)).
  { rewrite Hp. apply NoDup_fst_map_to_list. }
  assert (Hin : forall j x, In (j, x) order <-> m !! j = Some x).
  { intros j x. rewrite <- elem_of_list_In, Hp. apply elem_of_map_to_list. }
  clear Hp. unfold vals. destruct (m !! k) as [x|] eqn:E.
  - apply Hin in E. clear Hin. induction order as [|[j y] order IH]; [done|].
    cbn in Hnd. apply NoDup_cons in Hnd as [Hj Hnd]. rewrite elem_of_list_In in Hj. cbn [List.filter fst].
    destruct E as [[= -> ->]|E].
    + rewrite seqb_refl. cbn. f_equal.
      assert (HH : List.filter (fun kv => seqb (fst kv) k) order = []); [|by rewrite HH].
      clear -Hj. induction order as [|[j y] order IH]; [done|]. cbn [List.filter fst map In] in *.
      destruct (seqb j k) eqn:E; [apply seqb_true in E; tauto|]. apply IH. tauto.
    + assert (seqb j k = false) as ->; [|by apply IH].
      apply seqb_false. intros ->. apply Hj. apply (in_map fst) in E. done.
  - assert (HH : List.filter (fun kv => seqb (fst kv) k) order = []); [|by rewrite HH].
    assert (Hno : forall y, ~ In (k, y) order) by (intros y Hy; apply Hin in Hy; congruence).
    clear -Hno. induction order as [|[j y] order IH]; [done|]. cbn [List.filter fst map In] in *.
    destruct (seqb j k) eqn:E.
    + apply seqb_true in E as ->. exfalso. eapply Hno. by left.
    + apply IH. intros z Hz. eapply Hno. by right.
Qed.

(** The values of a query plus the parameters. *)
Lemma add_params_lookup (q : values) (m : gmap string string) order k : order ≡ₚ map_to_list m ->
  add_pairs q order !! k =
  match m !! k with Some x => Some (default [] (q !! k) ++ [x]) | None => q !! k end.
Proof. intros Hp. rewrite add_pairs_lookup, (NoDup_vals m) by done. by destruct (m !! k). Qed.

Lemma add_params_order (q : values) (m : gmap string string) order order' :
  order ≡ₚ map_to_list m -> order' ≡ₚ map_to_list m -> add_pairs q order = add_pairs q order'.
Proof. intros H1 H2. apply map_eq. intros k. by rewrite !(add_params_lookup q m). Qed.
