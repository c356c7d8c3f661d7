(** json_parse accepts exactly the JSON texts of TextSpec, up to the depth. *)
From Verif.Model Require Import GoStr Json.
From Verif.Spec Require Import ScopeSpec TextSpec.
From Verif.Proof Require Import StrFacts DecFacts JsonFacts NumberFacts QuotedFacts.
From Coq Require Import ZifyBool ZifyNat ZifyN.

#[local] Open Scope string_scope.

(** ** White space *)
Lemma space_spec a : is_json_space a = true <-> In (N_of_ascii a) [32; 9; 10; 13]%N.
Proof.
  assert (H : forallb (fun a => Bool.eqb (is_json_space a) (existsb (N.eqb (ord a)) [32; 9; 10; 13]%N)) all_ascii = true) by (vm_compute; reflexivity).
  pose proof (ascii_forall _ H a) as H1. apply Bool.eqb_prop in H1. clear H. rewrite H1, existsb_exists. split.
  - intros (x & Hx & E). apply N.eqb_eq in E. by subst x.
  - intros Hx. eexists. split; [exact Hx|]. apply N.eqb_eq. reflexivity.
Qed.
Lemma white_nil : white "".
Proof. intros a []. Qed.
Lemma white_cons a w : is_json_space a = true -> white w -> white (String a w).
Proof. intros Ha Hw b [<-|Hb]; [by apply space_spec|by apply Hw]. Qed.
Lemma white_inv a w : white (String a w) -> is_json_space a = true /\ white w.
Proof. intros H. split; [apply space_spec, H; by left|]. intros b Hb. apply H. by right. Qed.
Lemma skip_white w s : white w -> skip_ws (w +:+ s) = skip_ws s.
Proof.
  induction w as [|a w IH]; intros H; [done|]. apply white_inv in H as [Ha Hw]. rewrite app_cons_s. cbn [skip_ws]. rewrite Ha. by apply IH.
Qed.
Lemma skip_split s : exists w, s = w +:+ skip_ws s /\ white w.
Proof.
  induction s as [|a s IH]; [exists ""; split; [done|apply white_nil]|]. cbn [skip_ws]. destruct (is_json_space a) eqn:E.
  - destruct IH as (w & E' & Hw). exists (String a w). split; [|by apply white_cons].
    rewrite app_cons_s. by f_equal.
  - exists "". split; [done|apply white_nil].
Qed.
Lemma skip_skip s : skip_ws (skip_ws s) = skip_ws s.
Proof. destruct (skip_split s) as (w & E & Hw). rewrite E at 2. by rewrite skip_white. Qed.
Lemma white_end w : white w -> num_end w = true.
Proof.
  destruct w as [|a w]; [done|]. intros H. apply white_inv in H as [H _].
  assert (Hall : forallb (fun a => negb (is_json_space a) || num_end (String a "")) all_ascii = true) by (vm_compute; reflexivity).
  pose proof (ascii_forall _ Hall a) as H1. cbv beta in H1. rewrite H in H1. exact H1.
Qed.
Lemma white_end_app w s : white w -> num_end s = true -> num_end (w +:+ s) = true.
Proof. destruct w as [|a w]; [done|]. intros H _. apply white_end in H. exact H. Qed.

(** ** Numbers *)
Lemma take_digits_some s d rest : take_digits s = (d, rest) -> s = d +:+ rest /\ digits d = true.
Proof.
  revert d rest. induction s as [|a s IH]; intros d rest; cbn [take_digits]; [by intros [= <- <-]|].
  destruct (is_digit a) eqn:Ea; [|by intros [= <- <-]]. destruct (take_digits s) as [d' r'] eqn:E.
  intros [= <- <-]. destruct (IH _ _ eq_refl) as [-> Hd]. split; [by rewrite app_cons_s|].
  unfold digits in *. cbn [all_bytes]. by rewrite Ea.
Qed.
Lemma scan_int_some s i rest : scan_int s = Some (i, rest) -> s = i +:+ rest /\ number_int i.
Proof.
  destruct s as [|a s]; [done|]. cbn [scan_int]. destruct (Ascii.eqb_spec a "0") as [->|Hne].
  { intros [= <- <-]. split; [done|by left]. }
  destruct (is_digit a) eqn:Ea; [|done]. destruct (take_digits s) as [d r] eqn:E. intros [= <- <-].
  apply take_digits_some in E as [-> Hd]. split; [by rewrite app_cons_s|]. right. split.
  - apply decimal_digits_spec. split; [done|]. unfold digits in *. cbn [all_bytes]. by rewrite Ea.
  - intros r' [= -> _]. done.
Qed.
Lemma scan_frac_some s f rest : scan_frac s = Some (f, rest) -> s = f +:+ rest /\ exists d, number_frac f d.
Proof.
  destruct s as [|a s]; cbn [scan_frac]; [intros [= <- <-]; split; [done|by exists ""; left]|].
  destruct (Ascii.eqb_spec a ".") as [->|Hne]; [|intros [= <- <-]; split; [done|by exists ""; left]].
  destruct (take_digits s) as [d r] eqn:E. destruct (seqb d "") eqn:Ed; [done|]. intros [= <- <-].
  apply take_digits_some in E as [-> Hd]. split; [by rewrite app_cons_s|]. exists d. right. split; [|done].
  apply decimal_digits_spec. split; [by apply seqb_false|done].
Qed.
Lemma scan_exp_some s e rest : scan_exp s = Some (e, rest) -> s = e +:+ rest /\ exists x, number_exp e x.
Proof.
  destruct s as [|a s]; cbn [scan_exp]; [intros [= <- <-]; split; [done|by exists 0%Z; left]|].
  destruct (Ascii.eqb a "e" || Ascii.eqb a "E") eqn:Ea; [|intros [= <- <-]; split; [done|by exists 0%Z; left]].
  assert (Hc : In a ["e"; "E"]%char).
  { apply orb_true_iff in Ea as [Ea|Ea]; apply Ascii.eqb_eq in Ea as ->; cbn [In]; auto. }
  assert (Hgo : forall sign r1, In sign [""; "+"; "-"] -> s = sign +:+ r1 ->
    (let '(d, rest0) := take_digits r1 in if seqb d "" then None else Some (String a (sign +:+ d), rest0)) = Some (e, rest) ->
    String a s = e +:+ rest /\ exists x, number_exp e x).
  { intros sign r1 Hsg ->. destruct (take_digits r1) as [d r] eqn:E. destruct (seqb d "") eqn:Ed; [done|]. intros [= <- <-].
    apply take_digits_some in E as [-> Hd]. split; [by rewrite app_cons_s, app_assoc_s|]. eexists. right.
    exists a, sign, d. split; [done|]. split; [done|]. split; [|by split].
    apply decimal_digits_spec. split; [by apply seqb_false|done]. }
  destruct s as [|b s']; [apply (Hgo ""); [by left|done]|].
  destruct (Ascii.eqb b "+" || Ascii.eqb b "-") eqn:Eb; [|apply (Hgo ""); [by left|done]].
  apply (Hgo (str1 b)); [|done]. apply orb_true_iff in Eb as [Eb|Eb]; apply Ascii.eqb_eq in Eb as ->; cbn [In str1]; auto.
Qed.
Lemma scan_number_some s lit rest : scan_number s = Some (lit, rest) -> s = lit +:+ rest /\ json_number lit.
Proof.
  unfold scan_number.
  assert (Hgo : forall sign s0, In sign [""; "-"] -> s = sign +:+ s0 ->
    match scan_int s0 with
    | None => None
    | Some (i, s1) => match scan_frac s1 with None => None | Some (f, s2) =>
        match scan_exp s2 with None => None | Some (e, s3) => Some (sign +:+ i +:+ f +:+ e, s3) end end
    end = Some (lit, rest) -> s = lit +:+ rest /\ json_number lit).
  { intros sign s0 Hsg ->. destruct (scan_int s0) as [[i s1]|] eqn:E1; [|done].
    destruct (scan_frac s1) as [[f s2]|] eqn:E2; [|done]. destruct (scan_exp s2) as [[e s3]|] eqn:E3; [|done]. intros [= <- <-].
    apply scan_int_some in E1 as [-> Hi]. apply scan_frac_some in E2 as [-> [d Hf]]. apply scan_exp_some in E3 as [-> [x He]].
    split; [by rewrite !app_assoc_s|]. eexists _, sign, i, f, d, e, x. do 5 (split; [done|]). reflexivity. }
  destruct s as [|a r]; [apply (Hgo ""); [by left|done]|]. destruct (Ascii.eqb_spec a "-") as [->|Hne].
  - apply (Hgo "-"); [by right; left|done].
  - apply (Hgo ""); [by left|done].
Qed.

(** ** Depth *)
Lemma levels_arr l d : (levels (JArr l) <= d)%N <-> d <> 0%N /\ Forall (fun j => levels j <= d - 1)%N l.
Proof.
  cbn [levels]. set (m := fold_right _ _ _).
  assert (H : forall x, (m <= x)%N <-> Forall (fun j => levels j <= x)%N l).
  { intros x. subst m. induction l as [|j l IH]; cbn [fold_right]; [split; [constructor|lia]|].
    rewrite List.Forall_cons_iff, <- IH. lia. }
  rewrite <- H. lia.
Qed.
Lemma levels_obj l d : (levels (JObj l) <= d)%N <-> d <> 0%N /\ Forall (fun kv => levels (snd kv) <= d - 1)%N l.
Proof.
  cbn [levels]. set (m := fold_right _ _ _).
  assert (H : forall x, (m <= x)%N <-> Forall (fun kv => levels (snd kv) <= x)%N l).
  { intros x. subst m. induction l as [|j l IH]; cbn [fold_right]; [split; [constructor|lia]|].
    rewrite List.Forall_cons_iff, <- IH. lia. }
  rewrite <- H. lia.
Qed.

(** ** What is a JSON text is parsed, *)
Scheme says_min := Minimality for says Sort Prop
  with says_list_min := Minimality for says_list Sort Prop
  with says_table_min := Minimality for says_table Sort Prop.
Combined Scheme says_mutind from says_min, says_list_min, says_table_min.

Lemma says_starts s j : says s j -> starts_value s.
Proof.
  destruct 1; try (eexists _, _; split; [reflexivity|done]).
  apply json_number_ok in H as [_ (a & r & -> & Ha)]. apply number_head in Ha. exists a, r. tauto.
Qed.
Lemma parse_value_skip f d s : parse_value f d (skip_ws s) = parse_value f d s.
Proof. destruct f; [done|]. cbn [parse_value]. by rewrite skip_skip. Qed.
Lemma parse_elements_skip f d s : parse_elements f d (skip_ws s) = parse_elements f d s.
Proof. destruct f; [done|]. cbn [parse_elements]. by rewrite parse_value_skip. Qed.
Lemma parse_members_skip f d s : parse_members f d (skip_ws s) = parse_members f d s.
Proof. destruct f; [done|]. cbn [parse_members]. by rewrite skip_skip. Qed.
Lemma parse_value_white f d w s : white w -> parse_value f d (w +:+ s) = parse_value f d s.
Proof. intros H. by rewrite <- parse_value_skip, skip_white, parse_value_skip. Qed.

Definition parsed (s : string) (j : json) : Prop := forall fuel depth rest,
  slen s <= fuel -> (levels j <= depth)%N -> num_end rest = true -> parse_value fuel depth (s +:+ rest) = Some (j, rest).
Definition parsed_list (s : string) (l : list json) : Prop := forall fuel depth rest,
  slen s + 1 <= fuel -> Forall (fun j => levels j <= depth)%N l -> parse_elements fuel depth (s +:+ String "]" rest) = Some (l, rest).
Definition parsed_table (s : string) (l : list (string * json)) : Prop := forall fuel depth rest,
  slen s + 1 <= fuel -> Forall (fun kv => levels (snd kv) <= depth)%N l ->
  parse_members fuel depth (s +:+ String "}" rest) = Some (l, rest).

Lemma list_head s l rest : says_list s l -> exists b r, skip_ws (s +:+ rest) = String b r /\ Ascii.eqb b "]" = false.
Proof.
  assert (H : forall w t x, white w -> starts_value t -> exists b r, skip_ws (w +:+ t +:+ x) = String b r /\ Ascii.eqb b "]" = false).
  { intros w t x Hw Ht. rewrite skip_white, starts_skip by done. destruct Ht as (a & r & -> & _ & _ & Hne).
    eexists _, _. rewrite app_cons_s. split; [reflexivity|]. by apply Ascii.eqb_neq. }
  destruct 1 as [w1 s w2 j H1 H2 Hs|w1 s w2 j t l H1 H2 Hs Ht]; rewrite !app_assoc_s; apply H; try done; by eapply says_starts.
Qed.
Lemma table_head s l rest : says_table s l -> exists r, skip_ws (s +:+ rest) = String quote r.
Proof. destruct 1; rewrite !app_assoc_s, skip_white, app_cons_s by done; by eexists. Qed.

Lemma says_parsed :
  (forall s j, says s j -> parsed s j) /\ (forall s l, says_list s l -> parsed_list s l) /\ (forall s l, says_table s l -> parsed_table s l).
Proof.
  apply says_mutind; unfold parsed, parsed_list, parsed_table.
  - intros [|f] d rest Hf Hd Hr; [cbn in Hf; lia|done].
  - intros [|f] d rest Hf Hd Hr; [cbn in Hf; lia|done].
  - intros [|f] d rest Hf Hd Hr; [cbn in Hf; lia|done].
  - intros s Hs [|f] d rest Hf Hd Hr.
    { apply json_number_ok in Hs as [_ (a & r & -> & _)]. cbn in Hf. lia. }
    apply json_number_ok in Hs as [Hs (a & r & -> & Ha)]. specialize (Hs rest Hr).
    apply number_head in Ha as (H1 & _ & _ & H4 & H5 & H6 & H7 & H8 & H9). rewrite app_cons_s in Hs |- *. cbn [parse_value].
    rewrite skip_ws_cons, H4, H5, H6, H7, H8, H9, Hs by done. reflexivity.
  - intros s l Hq [|f] d rest Hf Hd Hr; [exfalso; clear -Hf; try rewrite slen_app in Hf; cbn [String.length] in Hf; lia|]. rewrite app_cons_s, app_assoc_s. change quote_mark with quote. cbn [parse_value].
    rewrite skip_ws_cons by done. change (Ascii.eqb quote "{") with false. change (Ascii.eqb quote "[") with false. rewrite Ascii.eqb_refl. cbn iota.
    change (String quote "" +:+ rest) with (String quote rest). destruct (quoted_scan _ _ Hq rest) as (k & -> & Hk). by rewrite (unquote_pieces _ _ Hk).
  - intros w Hw [|f] d rest Hf Hd Hr; [exfalso; clear -Hf; try rewrite slen_app in Hf; cbn [String.length] in Hf; lia|]. rewrite !app_assoc_s. change ("[" +:+ w +:+ "]" +:+ rest) with (String "[" (w +:+ String "]" rest)).
    cbn [parse_value]. rewrite skip_ws_cons by done. change (Ascii.eqb "[" "{") with false. rewrite Ascii.eqb_refl. cbn iota.
    replace (d =? 0)%N with false by (cbn [levels fold_right] in Hd; lia). rewrite skip_white by done. reflexivity.
  - intros s l Hl IH [|f] d rest Hf Hd Hr; [exfalso; clear -Hf; try rewrite slen_app in Hf; cbn [String.length] in Hf; lia|]. rewrite !app_assoc_s. change ("[" +:+ s +:+ "]" +:+ rest) with (String "[" (s +:+ String "]" rest)).
    rewrite !slen_app in Hf. change (slen "[") with 1 in Hf. change (slen "]") with 1 in Hf. apply levels_arr in Hd as [Hd Hl'].
    cbn [parse_value]. rewrite skip_ws_cons by done. change (Ascii.eqb "[" "{") with false. rewrite Ascii.eqb_refl. cbn iota.
    replace (d =? 0)%N with false by lia. destruct (list_head _ _ (String "]" rest) Hl) as (b & r & E & Hb). rewrite E, Hb, <- E.
    rewrite parse_elements_skip, IH by (done || lia). reflexivity.
  - intros w Hw [|f] d rest Hf Hd Hr; [exfalso; clear -Hf; try rewrite slen_app in Hf; cbn [String.length] in Hf; lia|]. rewrite !app_assoc_s. change ("{" +:+ w +:+ "}" +:+ rest) with (String "{" (w +:+ String "}" rest)).
    cbn [parse_value]. rewrite skip_ws_cons by done. rewrite Ascii.eqb_refl. cbn iota.
    replace (d =? 0)%N with false by (cbn [levels fold_right] in Hd; lia). rewrite skip_white by done. reflexivity.
  - intros s l Hl IH [|f] d rest Hf Hd Hr; [exfalso; clear -Hf; try rewrite slen_app in Hf; cbn [String.length] in Hf; lia|]. rewrite !app_assoc_s. change ("{" +:+ s +:+ "}" +:+ rest) with (String "{" (s +:+ String "}" rest)).
    rewrite !slen_app in Hf. change (slen "{") with 1 in Hf. change (slen "}") with 1 in Hf. apply levels_obj in Hd as [Hd Hl'].
    cbn [parse_value]. rewrite skip_ws_cons by done. rewrite Ascii.eqb_refl. cbn iota.
    replace (d =? 0)%N with false by lia. destruct (table_head _ _ (String "}" rest) Hl) as (r & E). rewrite E. change (Ascii.eqb quote "}") with false. cbn iota. rewrite <- E.
    rewrite parse_members_skip, IH by (done || lia). reflexivity.
  - intros w1 s w2 j H1 H2 Hs IH [|f] d rest Hf Hd; [lia|]. apply List.Forall_cons_iff in Hd as [Hd _]. rewrite !slen_app in Hf.
    rewrite !app_assoc_s. cbn [parse_elements]. rewrite parse_value_white, IH by (done || lia || by apply white_end_app).
    rewrite skip_white by done. reflexivity.
  - intros w1 s w2 j t l H1 H2 Hs IH Ht IHt [|f] d rest Hf Hd; [lia|]. apply List.Forall_cons_iff in Hd as [Hd Hd']. rewrite !slen_app in Hf.
    change (slen ",") with 1 in Hf.
    rewrite !app_assoc_s. cbn [parse_elements]. rewrite parse_value_white, IH by (done || lia || by apply white_end_app).
    rewrite skip_white by done. change ("," +:+ t +:+ String "]" rest) with (String "," (t +:+ String "]" rest)).
    rewrite skip_ws_cons by done. change (Ascii.eqb "," "]") with false. rewrite Ascii.eqb_refl. cbn iota.
    rewrite IHt by (done || lia). reflexivity.
  - intros w1 k q w2 w3 s w4 j H1 H2 H3 H4 Hq Hs IH [|f] d rest Hf Hd; [lia|]. apply List.Forall_cons_iff in Hd as [Hd _].
    cbn [snd] in Hd. rewrite !app_assoc_s, app_cons_s, !app_assoc_s, app_cons_s, !app_assoc_s. cbn [parse_members]. rewrite skip_white by done.
    change quote_mark with quote in *. rewrite skip_ws_cons by done. rewrite Ascii.eqb_refl. cbn [negb].
    destruct (quoted_scan _ _ Hq (w2 +:+ ":" +:+ w3 +:+ s +:+ w4 +:+ String "}" rest)) as (p & -> & Hp). rewrite (unquote_pieces _ _ Hp).
    rewrite skip_white by done. change (":" +:+ ?x) with (String ":" x). rewrite skip_ws_cons by done. rewrite Ascii.eqb_refl. cbn [negb].
    rewrite !slen_app in Hf. cbn [String.length] in Hf. rewrite !slen_app in Hf. cbn [String.length] in Hf. rewrite !slen_app in Hf. cbn [String.length] in Hf.
    rewrite parse_value_white, IH by (done || lia || by apply white_end_app). rewrite skip_white by done. reflexivity.
  - intros w1 k q w2 w3 s w4 j t l H1 H2 H3 H4 Hq Hs IH Ht IHt [|f] d rest Hf Hd; [lia|]. apply List.Forall_cons_iff in Hd as [Hd Hd'].
    cbn [snd] in Hd. rewrite !app_assoc_s, app_cons_s, !app_assoc_s, app_cons_s, !app_assoc_s. cbn [parse_members]. rewrite skip_white by done.
    change quote_mark with quote in *. rewrite skip_ws_cons by done. rewrite Ascii.eqb_refl. cbn [negb].
    destruct (quoted_scan _ _ Hq (w2 +:+ ":" +:+ w3 +:+ s +:+ w4 +:+ "," +:+ t +:+ String "}" rest)) as (p & -> & Hp). rewrite (unquote_pieces _ _ Hp).
    rewrite skip_white by done. change (":" +:+ ?x) with (String ":" x). rewrite skip_ws_cons by done. rewrite Ascii.eqb_refl. cbn [negb].
    rewrite !slen_app in Hf. cbn [String.length] in Hf. rewrite !slen_app in Hf. cbn [String.length] in Hf. rewrite !slen_app in Hf. cbn [String.length] in Hf.
    rewrite parse_value_white, IH by (done || lia || by apply white_end_app). rewrite skip_white by done. change ("," +:+ ?x) with (String "," x).
    rewrite skip_ws_cons by done. change (Ascii.eqb "," "}") with false. rewrite Ascii.eqb_refl. cbn iota. rewrite IHt by (done || lia). reflexivity.
Qed.

(** ** and what is parsed is a JSON text. *)
Lemma skip_cons_split s a r : skip_ws s = String a r -> exists w, s = w +:+ String a r /\ white w.
Proof. intros H. destruct (skip_split s) as (w & E & Hw). exists w. by rewrite <- H. Qed.
Lemma strip_literal p t rest : strip_prefix p t = Some rest -> t = p +:+ rest.
Proof. apply strip_prefix_some. Qed.

Lemma parsed_says fuel :
  (forall d s j rest, parse_value fuel d s = Some (j, rest) ->
     exists w t, s = w +:+ t +:+ rest /\ white w /\ says t j /\ (levels j <= d)%N) /\
  (forall d s l rest, parse_members fuel d s = Some (l, rest) ->
     exists t, s = t +:+ String "}" rest /\ says_table t l /\ Forall (fun kv => levels (snd kv) <= d)%N l) /\
  (forall d s l rest, parse_elements fuel d s = Some (l, rest) ->
     exists t, s = t +:+ String "]" rest /\ says_list t l /\ Forall (fun j => levels j <= d)%N l).
Proof.
  induction fuel as [|f (IHv & IHm & IHe)]; [done|]. split; [|split].
  - intros d s j rest H. cbn [parse_value] in H. destruct (skip_ws s) as [|a r] eqn:Es; [done|].
    apply skip_cons_split in Es as (w & -> & Hw). exists w. destruct (Ascii.eqb_spec a "{") as [->|N1].
    { destruct (d =? 0)%N eqn:Ed; [done|]. destruct (skip_ws r) as [|b r1] eqn:Er; [done|]. destruct (Ascii.eqb_spec b "}") as [->|Nb].
      - injection H as <- <-. apply skip_cons_split in Er as (w2 & -> & Hw2). exists ("{" +:+ w2 +:+ "}"). split; [by rewrite !app_assoc_s|].
        split; [done|]. split; [by constructor|]. cbn [levels fold_right]. lia.
      - rewrite <- Er, parse_members_skip in H. destruct (parse_members f (d - 1) r) as [[l rest']|] eqn:E; [|done]. injection H as <- <-.
        apply IHm in E as (t & -> & Ht & Hl). exists ("{" +:+ t +:+ "}"). split; [by rewrite !app_assoc_s|]. split; [done|].
        split; [by constructor|]. apply levels_obj. split; [lia|done]. }
    destruct (Ascii.eqb_spec a "[") as [->|N2].
    { destruct (d =? 0)%N eqn:Ed; [done|]. destruct (skip_ws r) as [|b r1] eqn:Er; [done|]. destruct (Ascii.eqb_spec b "]") as [->|Nb].
      - injection H as <- <-. apply skip_cons_split in Er as (w2 & -> & Hw2). exists ("[" +:+ w2 +:+ "]"). split; [by rewrite !app_assoc_s|].
        split; [done|]. split; [by constructor|]. cbn [levels fold_right]. lia.
      - rewrite <- Er, parse_elements_skip in H. destruct (parse_elements f (d - 1) r) as [[l rest']|] eqn:E; [|done]. injection H as <- <-.
        apply IHe in E as (t & -> & Ht & Hl). exists ("[" +:+ t +:+ "]"). split; [by rewrite !app_assoc_s|]. split; [done|].
        split; [by constructor|]. apply levels_arr. split; [lia|done]. }
    destruct (Ascii.eqb_spec a quote) as [->|N3].
    { destruct (scan_string r) as [[k rest']|] eqn:E; [|done]. injection H as <- <-. apply scan_quoted in E as (c & l & -> & Hc & Hp).
      exists (String quote_mark (c +:+ String quote_mark "")). rewrite (unquote_pieces _ _ Hp).
      split; [by rewrite app_cons_s, app_assoc_s|]. split; [done|]. split; [by constructor|]. cbn [levels]. lia. }
    destruct (Ascii.eqb a "t").
    { destruct (strip_prefix "true" (String a r)) as [rest'|] eqn:E; [|done]. injection H as <- <-. apply strip_literal in E as ->.
      exists "true". repeat split; [done|constructor|cbn [levels]; lia]. }
    destruct (Ascii.eqb a "f").
    { destruct (strip_prefix "false" (String a r)) as [rest'|] eqn:E; [|done]. injection H as <- <-. apply strip_literal in E as ->.
      exists "false". repeat split; [done|constructor|cbn [levels]; lia]. }
    destruct (Ascii.eqb a "n").
    { destruct (strip_prefix "null" (String a r)) as [rest'|] eqn:E; [|done]. injection H as <- <-. apply strip_literal in E as ->.
      exists "null". repeat split; [done|constructor|cbn [levels]; lia]. }
    destruct (scan_number (String a r)) as [[lit rest']|] eqn:E; [|done]. injection H as <- <-. apply scan_number_some in E as [-> Hn].
    exists lit. repeat split; [done|by constructor|cbn [levels]; lia].
  - intros d s l rest H. cbn [parse_members] in H. destruct (skip_ws s) as [|a r] eqn:Es; [done|].
    apply skip_cons_split in Es as (w1 & -> & Hw1). destruct (Ascii.eqb_spec a quote) as [->|]; [|done]. cbn [negb] in H.
    destruct (scan_string r) as [[k r1]|] eqn:Ek; [|done]. apply scan_quoted in Ek as (c & q & -> & Hc & Hq). rewrite (unquote_pieces _ _ Hq) in H.
    destruct (skip_ws r1) as [|b r2] eqn:E1; [done|]. apply skip_cons_split in E1 as (w2 & -> & Hw2).
    destruct (Ascii.eqb_spec b ":") as [->|]; [|done]. cbn [negb] in H.
    destruct (parse_value f d r2) as [[v r3]|] eqn:Ev; [|done]. apply IHv in Ev as (w3 & t & -> & Hw3 & Ht & Hlev).
    destruct (skip_ws r3) as [|e r4] eqn:E3; [done|]. apply skip_cons_split in E3 as (w4 & -> & Hw4).
    destruct (Ascii.eqb_spec e "}") as [->|].
    + injection H as <- <-. eexists. split; [|split; [exact (table_one _ _ _ _ _ _ _ _ Hw1 Hw2 Hw3 Hw4 Hc Ht)|]].
      * repeat (rewrite app_assoc_s || rewrite app_cons_s). rewrite ?app_nil_s. reflexivity.
      * constructor; [done|constructor].
    + destruct (Ascii.eqb_spec e ",") as [->|]; [|done]. destruct (parse_members f d r4) as [[l' rest']|] eqn:E; [|done]. injection H as <- <-.
      apply IHm in E as (t' & -> & Ht' & Hl'). eexists. split; [|split; [exact (table_more _ _ _ _ _ _ _ _ _ _ Hw1 Hw2 Hw3 Hw4 Hc Ht Ht')|]].
      * repeat (rewrite app_assoc_s || rewrite app_cons_s). rewrite ?app_nil_s. reflexivity.
      * by constructor.
  - intros d s l rest H. cbn [parse_elements] in H. destruct (parse_value f d s) as [[v r]|] eqn:Ev; [|done].
    apply IHv in Ev as (w1 & t & -> & Hw1 & Ht & Hlev). destruct (skip_ws r) as [|e r1] eqn:E; [done|].
    apply skip_cons_split in E as (w2 & -> & Hw2). destruct (Ascii.eqb_spec e "]") as [->|].
    + injection H as <- <-. exists (w1 +:+ t +:+ w2). split; [by rewrite !app_assoc_s|]. split; [by constructor|]. by repeat constructor.
    + destruct (Ascii.eqb_spec e ",") as [->|]; [|done]. destruct (parse_elements f d r1) as [[l' rest']|] eqn:E; [|done]. injection H as <- <-.
      apply IHe in E as (t' & -> & Ht' & Hl'). exists (w1 +:+ t +:+ w2 +:+ "," +:+ t'). split; [by rewrite !app_assoc_s|]. split; [by constructor|]. by constructor.
Qed.

Lemma json_parse_spec s j : json_parse s = Some j <-> json_text s j /\ (levels j <= 10000)%N.
Proof.
  unfold json_parse, max_depth. split.
  - destruct (parse_value (S (slen s)) 10000 s) as [[j' rest]|] eqn:E; [|done]. destruct (seqb (skip_ws rest) "") eqn:Er; [|done]. intros [= ->].
    apply (proj1 (parsed_says _)) in E as (w & t & -> & Hw & Ht & Hl). split; [|done]. exists w, t, rest. do 2 (split; [done|]). split; [|done].
    apply seqb_true in Er. destruct (skip_split rest) as (w2 & E & Hw2). rewrite Er, app_nil_r_s in E. by subst w2.
  - intros [(w1 & t & w2 & -> & H1 & H2 & Ht) Hl]. rewrite parse_value_white by done.
    rewrite (proj1 says_parsed _ _ Ht); [|rewrite !slen_app; lia|done|by apply white_end].
    rewrite <- (app_nil_r_s w2), skip_white by done. reflexivity.
Qed.
