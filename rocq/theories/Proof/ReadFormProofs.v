(** Proofs of C101. *)
From Verif.Model Require Import ReadForm Server.
From Verif.Spec Require Import ReadAllSpec ReadFormSpec.
From Verif.Proof Require Import StrFacts ReadAllProofs.

Definition failed (e : read_err) : bool := match e with ReadError => true | _ => false end.

Lemma come_limited {S} (rd : body_reader S) : forall k st body clean limit l e st', slen body <= k ->
  comes rd st body clean -> read_all (limited rd) (st, limit) l e st' ->
  ((Z.of_nat (slen body) < limit)%Z -> String.concat "" l = body /\ failed e = negb clean) /\
  ((limit <= Z.of_nat (slen body))%Z -> failed e = true \/ (limit <= Z.of_nat (slen (String.concat "" l)))%Z).
Proof.
  induction k as [|k IH]; intros st body clean limit l e st' Hk Ha Hr.
  all: destruct (Z.leb_spec limit 0) as [Hl|Hl]; [split; [lia|intros _; right; lia]|].
  all: inversion Ha as [? ? Hx|? ? ? Hx]; subst.
  1, 3: split; [|cbn [String.length]; lia]; intros _;
    inversion Hr as [n ? ? b ? Hn Hc He|n ? ? b ? ? ? Hn Hc Hrest]; subst; unfold limited in Hc; cbn [fst snd] in Hc; rewrite (proj2 (Z.leb_gt limit 0) Hl) in Hc;
      destruct (Hx (Nat.min n (Z.to_nat limit)) ltac:(lia)) as (s1 & E); rewrite E in Hc; inversion Hc; subst; by destruct clean.
  - destruct (Hx 1 ltac:(lia)) as (s1 & b & rest & e' & _ & Hb & _ & -> & _). destruct b; [done|]. rewrite slen_app in Hk. cbn in Hk. lia.
  - inversion Hr as [n ? ? b ? Hn Hc He|n ? ? b ? ? ? Hn Hc Hrest]; subst; unfold limited in Hc; cbn [fst snd] in Hc; rewrite (proj2 (Z.leb_gt limit 0) Hl) in Hc;
      destruct (Hx (Nat.min n (Z.to_nat limit)) ltac:(lia)) as (s1 & b' & rest & e' & E & Hb & Hlen & -> & Hy); rewrite E in Hc; injection Hc as <- <- ->.
    + destruct Hy as [[-> _]|(-> & ->)]; [done|]. rewrite app_nil_r_s, concat_cons_s. cbn [String.concat]. rewrite app_nil_r_s.
      split; [intros _; split; [done|by destruct clean]|intros H; by right].
    + destruct Hy as [[_ Hy]|(_ & ?)]; [|by destruct clean]. assert (0 < slen b') by (destruct b'; [done|cbn; lia]). rewrite slen_app in *.
      destruct (IH _ rest _ _ _ _ _ ltac:(lia) Hy Hrest) as [H1 H2]. rewrite concat_cons_s, slen_app. split.
      * intros H3. destruct (H1 ltac:(lia)) as [-> ->]. done.
      * intros H3. destruct (H2 ltac:(lia)) as [H4|H4]; [by left|right; lia].
Qed.
Lemma come_ends {S} (rd : body_reader S) : forall k st body clean limit, slen body <= k -> comes rd st body clean ->
  exists l e st', read_all (limited rd) (st, limit) l e st'.
Proof.
  induction k as [|k IH]; intros st body clean limit Hk Ha.
  all: destruct (Z.leb_spec limit 0) as [Hl|Hl];
    [eexists _, _, _; eapply (all_end _ 1); [lia| |]; [unfold limited; cbn [fst snd]; rewrite (proj2 (Z.leb_le limit 0) Hl); reflexivity|done]|].
  all: inversion Ha as [? ? Hx|? ? ? Hx]; subst.
  1, 3: destruct (Hx 1 ltac:(lia)) as (s1 & E); eexists _, _, _; eapply (all_end _ 1); [lia| |];
    [unfold limited; cbn [fst snd]; rewrite (proj2 (Z.leb_gt limit 0) Hl); replace (Nat.min 1 (Z.to_nat limit)) with 1 by lia; rewrite E; reflexivity|by destruct clean].
  - destruct (Hx 1 ltac:(lia)) as (s1 & b & rest & e' & _ & Hb & _ & -> & _). destruct b; [done|]. rewrite slen_app in Hk. cbn in Hk. lia.
  - destruct (Hx 1 ltac:(lia)) as (s1 & b & rest & e' & E & Hb & Hlen & -> & Hy).
    assert (Hc : limited rd (st, limit) 1 = ((s1, (limit - Z.of_nat (slen b))%Z), b, e')).
    { unfold limited; cbn [fst snd]; rewrite (proj2 (Z.leb_gt limit 0) Hl); replace (Nat.min 1 (Z.to_nat limit)) with 1 by lia; by rewrite E. }
    assert (0 < slen b) by (destruct b; [done|cbn; lia]). rewrite slen_app in Hk. destruct Hy as [[-> Hy]|(_ & ->)].
    + destruct (IH _ rest _ (limit - Z.of_nat (slen b))%Z ltac:(lia) Hy) as (l & e & st' & Hr). eexists _, _, _. eapply (all_more _ 1); [lia|exact Hc|exact Hr].
    + eexists _, _, _. eapply (all_end _ 1); [lia|exact Hc|by destruct clean].
Qed.

Lemma reads_come {S} (rd : body_reader S) st body clean limit data ok st' : comes rd st body clean -> reads_limited rd st limit data ok st' ->
  ((Z.of_nat (slen body) < limit)%Z -> data = body /\ ok = clean) /\
  ((limit <= Z.of_nat (slen body))%Z -> ok = false \/ (limit <= Z.of_nat (slen data))%Z).
Proof.
  intros Ha (l & e & rest & Hr & -> & ->). destruct (come_limited rd _ _ _ _ _ _ _ _ (le_n _) Ha Hr) as [H1 H2]. split.
  - intros H. destruct (H1 H) as [-> K]. split; [done|]. by destruct e, clean.
  - intros H. destruct (H2 H) as [K|K]; [left; by destruct e|by right].
Qed.

#[local] Opaque max_form_size parse_query parse_media_type.

Lemma post_form_any {S} (rd : body_reader S) st r res : parse_post_form_on rd st (rq_ctype r) res ->
  exists data ok, res = parse_post_form (request_with r data ok) /\
    (exists st' failed, calls rd st data failed st') /\ (honest rd -> (Z.of_nat (slen data) <= max_form_size + 1)%Z).
Proof.
  unfold parse_post_form_on, parse_post_form. cbn [request_with rq_body rq_ctype].
  destruct (parse_media_type _) as [ct ok]. destruct (seqb ct form_ctype).
  - intros (data & clean & st' & Hr & ->). exists data, clean. split; [by destruct clean|].
    split; [exists st', (negb clean); exact (reads_calls _ _ _ _ _ _ Hr)|]. intros Hh. pose proof (reads_bound _ _ _ _ _ _ Hh Hr) as K.
    assert (0 <= max_form_size)%Z by (with_strategy transparent [max_form_size] unfold max_form_size; lia). lia.
  - intros ->. exists "", true. split; [done|]. split; [exists st, false; apply calls_none|].
    intros _. with_strategy transparent [max_form_size] unfold max_form_size. cbn [String.length]. lia.
Qed.
Lemma post_form_come {S} (rd : body_reader S) st r body clean res : comes rd st body clean ->
  parse_post_form_on rd st (rq_ctype r) res <-> res = parse_post_form (request_with r body clean).
Proof.
  intros Ha. unfold parse_post_form_on, parse_post_form. cbn [request_with rq_body rq_ctype].
  destruct (parse_media_type _) as [ct ok]. destruct (seqb ct form_ctype); [|done].
  assert (K : forall data c st', reads_limited rd st (max_form_size + 1) data c st' ->
    (if negb c then (∅, false) else if (max_form_size <? Z.of_nat (slen data))%Z then (∅, false) else let '(vs, e) := parse_query data in (vs, ok && e)) =
    (if negb clean || (max_form_size <? Z.of_nat (slen body))%Z then (∅, false) else let '(vs, e) := parse_query body in (vs, ok && e))).
  { intros data c st' Hr. destruct (reads_come _ _ _ _ _ _ _ _ Ha Hr) as [H1 H2].
    destruct (Z.ltb_spec max_form_size (Z.of_nat (slen body))) as [Hb|Hb].
    - rewrite orb_true_r. destruct (H2 ltac:(lia)) as [->|Hd]; [done|]. destruct c; [|done]. cbn [negb].
      by destruct (Z.ltb_spec max_form_size (Z.of_nat (slen data))); [|lia].
    - destruct (H1 ltac:(lia)) as [-> ->]. rewrite orb_false_r. destruct clean; [|done]. cbn [negb].
      by destruct (Z.ltb_spec max_form_size (Z.of_nat (slen body))); [lia|]. }
  split.
  - intros (data & c & st' & Hr & ->). exact (K _ _ _ Hr).
  - intros ->. destruct (come_ends rd _ _ _ _ (max_form_size + 1) (le_n _) Ha) as (l & e & [st' rest] & Hr).
    assert (Hz : reads_limited rd st (max_form_size + 1) (String.concat "" l) (match e with ReadError => false | _ => true end) st') by (by exists l, e, rest).
    eexists _, _, _. split; [exact Hz|]. symmetry. exact (K _ _ _ Hz).
Qed.

Lemma c101_form : forall S (rd : body_reader S) st r body clean res, comes rd st body clean ->
  parse_form_on rd st r res <-> res = parse_form (request_with r body clean).
Proof.
  intros S rd st r body clean res Ha. unfold parse_form_on, parse_form. cbn [request_with rq_body rq_preset rq_method rq_query].
  destruct (parse_query (rq_query r)) as [q ok2]. destruct (rq_preset r) as [v|].
  - split; [intros (post & ok1 & [= -> ->] & ->); done|intros ->; by exists v, true].
  - destruct (has_form_body (rq_method r)).
    + split.
      * intros (post & ok1 & Hp & ->). apply (post_form_come _ _ _ _ _ _ Ha) in Hp. rewrite <- Hp. done.
      * destruct (parse_post_form (request_with r body clean)) as [post ok1] eqn:E. intros ->. exists post, ok1. split; [|done].
        by apply (post_form_come _ _ _ _ _ _ Ha).
    + split; [intros (post & ok1 & [= -> ->] & ->); done|intros ->; by exists ∅, true].
Qed.
Lemma c101_any : forall S (rd : body_reader S) st r res, parse_form_on rd st r res ->
  exists data ok, res = parse_form (request_with r data ok) /\
    (exists st' failed, calls rd st data failed st') /\ (honest rd -> (Z.of_nat (slen data) <= max_form_size + 1)%Z).
Proof.
  intros S rd st r res. unfold parse_form_on, parse_form. cbn [request_with rq_body rq_preset rq_method rq_query].
  assert (H0 : exists (data : string) (ok : bool), (exists st' failed, calls rd st data failed st') /\ (honest rd -> (Z.of_nat (slen data) <= max_form_size + 1)%Z)).
  { exists "", true. split; [exists st, false; apply calls_none|]. intros _. with_strategy transparent [max_form_size] unfold max_form_size. cbn [String.length]. lia. }
  destruct (parse_query (rq_query r)) as [q ok2]. intros (post & ok1 & Hp & ->). destruct (rq_preset r) as [v|].
  - injection Hp as -> ->. destruct H0 as (data & ok & K). by exists data, ok.
  - destruct (has_form_body (rq_method r)).
    + destruct (post_form_any _ _ _ _ Hp) as (data & ok & E & K). exists data, ok. by rewrite <- E.
    + injection Hp as -> ->. destruct H0 as (data & ok & K). by exists data, ok.
Qed.

Lemma c101_returns : forall S (rd : body_reader S) st r, advances rd -> exists res, parse_form_on rd st r res.
Proof.
  intros S rd st r Ha. unfold parse_form_on, parse_post_form_on. destruct (parse_query (rq_query r)) as [q ok2]. destruct (rq_preset r) as [v|].
  - by exists (if true && ok2 then Some {| f_post := v; f_form := merge_values v q |} else None), v, true.
  - destruct (has_form_body (rq_method r)); [|by exists (if true && ok2 then Some {| f_post := ∅; f_form := merge_values ∅ q |} else None), ∅, true].
    destruct (parse_media_type _) as [ct ok]. destruct (seqb ct form_ctype).
    + destruct (advance_ends _ Ha st (max_form_size + 1)) as (data & clean & st' & Hr).
      destruct (if negb clean then (∅, false) else if (max_form_size <? Z.of_nat (slen data))%Z then (∅, false) else let '(vs, e) := parse_query data in (vs, ok && e)) as [post ok1] eqn:E.
      eexists _, post, ok1. split; [|reflexivity]. exists data, clean, st'. by rewrite E.
    + by eexists _, _, _.
Qed.
Lemma handle_same ev s r body clean body' clean' : parse_form (request_with r body clean) = parse_form (request_with r body' clean') ->
  handle ev s (request_with r body clean) = handle ev s (request_with r body' clean').
Proof.
  intros H. unfold handle, authorization_endpoint, token_endpoint, introspection_endpoint, revocation_endpoint, lookup_prologue, post_form,
    parse_authorization_request, parse_token_request, parse_introspection_request, parse_revocation_request, parse_lookup_request.
  rewrite H. reflexivity.
Qed.
Lemma c101_answer : forall S (rd : body_reader S) st r ev s w body clean data ok, comes rd st body clean ->
  parse_form_on rd st r (parse_form (request_with r data ok)) ->
  serve_http ev s (request_with r data ok) w = serve_http ev s (request_with r body clean) w.
Proof.
  intros S rd st r ev s w body clean data ok Ha H. apply (c101_form _ _ _ _ _ _ _ Ha) in H. unfold serve_http. by rewrite (handle_same _ _ _ _ _ _ _ H).
Qed.

(** The readers of the examples. *)
Lemma drip_comes (clean : bool) body : comes (drip NoErr (if clean then EndOfFile else ReadError)) body body clean.
Proof.
  induction body as [|a r IH]; [apply comes_end; intros [|n] Hn; [lia|by exists ""]|]. apply comes_piece. intros [|n] Hn; [lia|].
  exists r, (String a ""), r, NoErr. split; [by destruct r|]. split; [done|]. split; [cbn; lia|]. split; [done|]. by left.
Qed.
Lemma drip_comes_at_once (clean : bool) body : let e := if clean then EndOfFile else ReadError in comes (drip e e) body body clean.
Proof.
  cbv zeta. induction body as [|a r IH]; [apply comes_end; intros [|n] Hn; [lia|by exists ""]|]. apply comes_piece. intros [|n] Hn; [lia|].
  destruct r as [|a' r].
  - exists "", (String a ""), "", (if clean then EndOfFile else ReadError). split; [done|]. split; [done|]. split; [cbn; lia|]. split; [done|]. by right.
  - exists (String a' r), (String a ""), (String a' r), NoErr. split; [done|]. split; [done|]. split; [cbn; lia|]. split; [done|]. by left.
Qed.
