(** Proofs of C100. *)
From Verif.Model Require Import ReadAll.
From Verif.Spec Require Import ReadAllSpec.
From Verif.Proof Require Import StrFacts.

Lemma concat_cons_s b l : String.concat "" (b :: l) = b +:+ String.concat "" l.
Proof. destruct l; cbn [String.concat]; [by rewrite app_nil_r_s|done]. Qed.
Lemma take_max_le n s : slen s <= n -> take_max n s = s.
Proof. revert n. induction s as [|a s IH]; intros [|n]; cbn; try done; [lia|]. intros H. f_equal. apply IH. lia. Qed.
Lemma take_max_app n b rest : slen b <= n -> take_max n (b +:+ rest) = b +:+ take_max (n - slen b) rest.
Proof.
  revert n. induction b as [|a b IH]; intros n H; [by rewrite Nat.sub_0_r|].
  destruct n as [|n]; [cbn in H; lia|]. rewrite !app_cons_s. cbn. f_equal. apply IH. cbn in H. lia.
Qed.

(** The calls of ReadAll on a limited body. *)
Lemma limited_end {S} (rd : body_reader S) st limit l e st' : (limit <= 0)%Z -> read_all (limited rd) (st, limit) l e st' ->
  l = [""] /\ e = EndOfFile /\ st' = (st, limit).
Proof.
  intros Hl H. inversion H as [n ? ? b ? Hn Hr He|n ? ? b ? ? ? Hn Hr Hrest]; subst; unfold limited in Hr; cbn [fst snd] in Hr;
    rewrite (proj2 (Z.leb_le limit 0) Hl) in Hr; injection Hr; intros; subst; try done; by repeat split.
Qed.
Lemma limited_bound {S} (rd : body_reader S) st l e st' : honest rd -> read_all (limited rd) st l e st' ->
  (Z.of_nat (slen (String.concat "" l)) <= Z.max 0 (snd st))%Z.
Proof.
  intros Hh H. induction H as [n st st' b e Hn Hr He|n st st1 b l e st2 Hn Hr Hl IH].
  - rewrite concat_cons_s, slen_app. cbn [String.concat String.length]. unfold limited in Hr. destruct (Z.leb_spec (snd st) 0); [injection Hr as _ <- _; cbn; lia|].
    destruct (rd (fst st) (Nat.min n (Z.to_nat (snd st)))) as [[x y] z] eqn:E. injection Hr as _ <- _. apply Hh in E. lia.
  - rewrite concat_cons_s, slen_app. unfold limited in Hr. destruct (Z.leb_spec (snd st) 0); [done|].
    destruct (rd (fst st) (Nat.min n (Z.to_nat (snd st)))) as [[x y] z] eqn:E. injection Hr as <- <- _. apply Hh in E. cbn [snd] in IH. lia.
Qed.

Lemma arrived_limited {S} (rd : body_reader S) : forall k st body clean limit l e st', slen body <= k ->
  arrives rd st body clean -> read_all (limited rd) (st, limit) l e st' ->
  (String.concat "" l, match e with ReadError => false | _ => true end) = read_limited (response_with 0 "" body clean) limit.
Proof.
  induction k as [|k IH]; intros st body clean limit l e st' Hk Ha Hr.
  all: unfold read_limited; cbn [response_with rs_body rs_clean].
  all: destruct (Z.leb_spec limit 0) as [Hl|Hl]; [destruct (limited_end _ _ _ _ _ _ Hl Hr) as (-> & -> & _); by replace (Z.to_nat limit) with 0 by lia|].
  all: inversion Ha as [? ? Hx|? ? ? Hx]; subst.
  - destruct (Nat.leb_spec (Z.to_nat limit) (slen "")) as [Hz|Hz]; [cbn in Hz; lia|].
    inversion Hr as [n ? ? b ? Hn Hc He|n ? ? b ? ? ? Hn Hc Hrest]; subst; unfold limited in Hc; cbn [fst snd] in Hc; rewrite (proj2 (Z.leb_gt limit 0) Hl) in Hc;
      destruct (Hx (Nat.min n (Z.to_nat limit)) ltac:(lia)) as (s1 & E); rewrite E in Hc; inversion Hc; subst; by destruct clean.
  - destruct (Hx 1 ltac:(lia)) as (s1 & b & rest & e' & _ & Hb & _ & -> & _). destruct b; [done|]. rewrite slen_app in Hk. cbn in Hk. lia.
  - destruct (Nat.leb_spec (Z.to_nat limit) (slen "")) as [Hz|Hz]; [cbn in Hz; lia|].
    inversion Hr as [n ? ? b ? Hn Hc He|n ? ? b ? ? ? Hn Hc Hrest]; subst; unfold limited in Hc; cbn [fst snd] in Hc; rewrite (proj2 (Z.leb_gt limit 0) Hl) in Hc;
      destruct (Hx (Nat.min n (Z.to_nat limit)) ltac:(lia)) as (s1 & E); rewrite E in Hc; inversion Hc; subst; by destruct clean.
  - inversion Hr as [n ? ? b ? Hn Hc He|n ? ? b ? ? ? Hn Hc Hrest]; subst; unfold limited in Hc; cbn [fst snd] in Hc; rewrite (proj2 (Z.leb_gt limit 0) Hl) in Hc;
      destruct (Hx (Nat.min n (Z.to_nat limit)) ltac:(lia)) as (s1 & b' & rest & e' & E & Hb & Hlen & -> & Hy); rewrite E in Hc; injection Hc as <- <- ->.
    + destruct Hy as [[-> _]|(-> & -> & ->)]; [done|]. rewrite app_nil_r_s, concat_cons_s. cbn [String.concat]. rewrite app_nil_r_s.
      destruct (Nat.leb_spec (Z.to_nat limit) (slen b')); [|done]. by rewrite take_max_le by lia.
    + destruct Hy as [[_ Hy]|(? & _)]; [|done]. assert (0 < slen b') by (destruct b'; [done|cbn; lia]). rewrite slen_app in *.
      pose proof (IH _ rest _ _ _ _ _ ltac:(lia) Hy Hrest) as Hi. unfold read_limited in Hi. cbn [response_with rs_body rs_clean] in Hi.
      rewrite concat_cons_s. replace (Z.to_nat (limit - Z.of_nat (slen b'))) with (Z.to_nat limit - slen b') in Hi by lia.
      destruct (Nat.leb_spec (Z.to_nat limit - slen b') (slen rest)), (Nat.leb_spec (Z.to_nat limit) (slen b' + slen rest)); try lia;
        injection Hi as Hi1 Hi2; rewrite Hi1, Hi2; [|done]. by rewrite take_max_app by lia.
Qed.

Lemma c100_arrives : forall S (rd : body_reader S) st body clean limit data ok st' status ctype, arrives rd st body clean ->
  reads_limited rd st limit data ok st' -> read_limited (response_with status ctype body clean) limit = (data, ok).
Proof.
  intros S rd st body clean limit data ok st' status ctype Ha (l & e & rest & Hr & -> & ->).
  symmetry. exact (arrived_limited rd _ _ _ _ _ _ _ _ (le_n _) Ha Hr).
Qed.
Lemma c100_ends : forall S (rd : body_reader S) st body clean limit, arrives rd st body clean ->
  exists data ok st', reads_limited rd st limit data ok st'.
Proof.
  intros S rd. assert (H : forall k st body clean limit, slen body <= k -> arrives rd st body clean -> exists l e st', read_all (limited rd) (st, limit) l e st').
  { assert (H0 : forall st limit, (limit <= 0)%Z -> exists l e st', read_all (limited rd) (st, limit) l e st').
    { intros st limit Hl. eexists _, _, _. eapply (all_end _ 1); [lia| |].
      - unfold limited. cbn [fst snd]. rewrite (proj2 (Z.leb_le limit 0) Hl). reflexivity.
      - done. }
    induction k as [|k IH]; intros st body clean limit Hk Ha; (destruct (Z.leb_spec limit 0) as [Hl|Hl]; [by apply H0|]);
      inversion Ha as [? ? Hx|? ? ? Hx]; subst.
    1, 3: destruct (Hx 1 ltac:(lia)) as (s1 & E); eexists _, _, _; eapply (all_end _ 1); [lia| |];
      [unfold limited; cbn [fst snd]; rewrite (proj2 (Z.leb_gt limit 0) Hl); replace (Nat.min 1 (Z.to_nat limit)) with 1 by lia; rewrite E; reflexivity|by destruct clean].
    - destruct (Hx 1 ltac:(lia)) as (s1 & b & rest & e' & _ & Hb & _ & -> & _). destruct b; [done|]. rewrite slen_app in Hk. cbn in Hk. lia.
    - destruct (Hx 1 ltac:(lia)) as (s1 & b & rest & e' & E & Hb & Hlen & -> & Hy).
      assert (Hc : limited rd (st, limit) 1 = ((s1, (limit - Z.of_nat (slen b))%Z), b, e')).
      { unfold limited; cbn [fst snd]; rewrite (proj2 (Z.leb_gt limit 0) Hl); replace (Nat.min 1 (Z.to_nat limit)) with 1 by lia; by rewrite E. }
      assert (0 < slen b) by (destruct b; [done|cbn; lia]). rewrite slen_app in Hk. destruct Hy as [[-> Hy]|(-> & _ & _)].
      + destruct (IH _ rest _ (limit - Z.of_nat (slen b))%Z ltac:(lia) Hy) as (l & e & st' & Hr). eexists _, _, _. eapply (all_more _ 1); [lia|exact Hc|exact Hr].
      + eexists _, _, _. eapply (all_end _ 1); [lia|exact Hc|done]. }
  intros st body clean limit Ha. destruct (H _ _ _ _ limit (le_n _) Ha) as (l & e & [st' rest] & Hr).
  exists (String.concat "" l), (match e with ReadError => false | _ => true end), st', l, e, rest. done.
Qed.

(** The three functions on a body that arrives. *)
Lemma json_body_on rs limit data ok : read_limited rs limit = (data, ok) ->
  read_json_body rs limit = if negb ok then None else if negb (json_content (rs_ctype rs)) then None else Some data.
Proof.
  intros H. unfold read_json_body, json_content. rewrite H. destruct ok; [|done]. cbn [negb].
  destruct (parse_media_type (rs_ctype rs)) as [ct ok']. by destruct ok', (seqb ct "application/json").
Qed.
Lemma c100_token : forall S (rd : body_reader S) st body clean status ctype limit res, arrives rd st body clean ->
  parse_token_response_on rd st ctype limit res <-> res = parse_token_response (response_with status ctype body clean) limit.
Proof.
  intros S rd st body clean status ctype limit res Ha.
  assert (K : forall data ok st', reads_limited rd st limit data ok st' -> parse_token_response (response_with status ctype body clean) limit =
    if negb ok then None else if negb (json_content ctype) then None else match json_parse data with Some j => token_of_json j | None => None end).
  { intros data ok st' Hr. unfold parse_token_response. rewrite (json_body_on _ _ _ _ (c100_arrives _ _ _ _ _ _ _ _ _ status ctype Ha Hr)).
    cbn [response_with rs_ctype]. by destruct ok, (json_content ctype). }
  split.
  - intros (data & ok & st' & Hr & ->). symmetry. exact (K _ _ _ Hr).
  - intros ->. destruct (c100_ends _ _ _ _ _ limit Ha) as (data & ok & st' & Hr). exists data, ok, st'. split; [exact Hr|exact (K _ _ _ Hr)].
Qed.
Lemma c100_introspection : forall S (rd : body_reader S) st body clean status ctype limit res, arrives rd st body clean ->
  parse_introspection_response_on rd st ctype limit res <-> res = parse_introspection_response (response_with status ctype body clean) limit.
Proof.
  intros S rd st body clean status ctype limit res Ha.
  assert (K : forall data ok st', reads_limited rd st limit data ok st' -> parse_introspection_response (response_with status ctype body clean) limit =
    if negb ok then None else if negb (json_content ctype) then None else match json_parse data with Some j => introspection_of_json j | None => None end).
  { intros data ok st' Hr. unfold parse_introspection_response. rewrite (json_body_on _ _ _ _ (c100_arrives _ _ _ _ _ _ _ _ _ status ctype Ha Hr)).
    cbn [response_with rs_ctype]. by destruct ok, (json_content ctype). }
  split.
  - intros (data & ok & st' & Hr & ->). symmetry. exact (K _ _ _ Hr).
  - intros ->. destruct (c100_ends _ _ _ _ _ limit Ha) as (data & ok & st' & Hr). exists data, ok, st'. split; [exact Hr|exact (K _ _ _ Hr)].
Qed.
Lemma c100_error : forall S (rd : body_reader S) st body clean status ctype limit res, arrives rd st body clean ->
  parse_request_error_on rd st status limit res <-> res = parse_request_error (response_with status ctype body clean) limit.
Proof.
  intros S rd st body clean status ctype limit res Ha. unfold parse_request_error. split.
  - intros (data & ok & st' & Hr & ->). by rewrite (c100_arrives _ _ _ _ _ _ _ _ _ status ctype Ha Hr).
  - intros ->. destruct (c100_ends _ _ _ _ _ limit Ha) as (data & ok & st' & Hr). exists data, ok, st'. split; [exact Hr|].
    by rewrite (c100_arrives _ _ _ _ _ _ _ _ _ status ctype Ha Hr).
Qed.

(** Any body. *)
Lemma limited_calls {S} (rd : body_reader S) st l e st' : read_all (limited rd) st l e st' ->
  calls rd (fst st) (String.concat "" l) (match e with ReadError => true | _ => false end) (fst st').
Proof.
  intros H. induction H as [n st st' b e Hn Hr He|n st st1 b l e st2 Hn Hr Hl IH].
  - rewrite concat_cons_s. cbn [String.concat]. unfold limited in Hr. destruct (Z.leb_spec (snd st) 0); [injection Hr as <- <- <-; apply calls_none|].
    destruct (rd (fst st) (Nat.min n (Z.to_nat (snd st)))) as [[x y] z] eqn:E. injection Hr as <- <- <-. cbn [fst].
    pose proof (calls_one rd _ _ _ _ _ _ _ _ E (calls_none rd x)) as K. by destruct z.
  - rewrite concat_cons_s. unfold limited in Hr. destruct (Z.leb_spec (snd st) 0); [done|].
    destruct (rd (fst st) (Nat.min n (Z.to_nat (snd st)))) as [[x y] z] eqn:E. injection Hr as <- <- ->. cbn [fst] in IH.
    exact (calls_one rd _ _ _ _ _ _ _ _ E IH).
Qed.
Lemma reads_calls {S} (rd : body_reader S) st limit data ok st' : reads_limited rd st limit data ok st' -> calls rd st data (negb ok) st'.
Proof. intros (l & e & rest & Hr & -> & ->). pose proof (limited_calls _ _ _ _ _ Hr) as K. cbn [fst] in K. by destruct e. Qed.
Lemma reads_bound {S} (rd : body_reader S) st limit data ok st' : honest rd -> reads_limited rd st limit data ok st' ->
  (Z.of_nat (slen data) <= Z.max 0 limit)%Z.
Proof. intros Hh (l & e & rest & Hr & -> & _). exact (limited_bound _ _ _ _ _ Hh Hr). Qed.
Lemma read_exact status ctype data clean : read_limited (response_with status ctype data clean) (Z.of_nat (slen data)) = (data, true).
Proof. unfold read_limited. cbn [response_with rs_body rs_clean]. rewrite Nat2Z.id, Nat.leb_refl. by rewrite take_max_le. Qed.
Lemma c100_token_any : forall S (rd : body_reader S) st ctype limit r, honest rd -> parse_token_response_on rd st ctype limit (Some r) ->
  exists data st', calls rd st data false st' /\ slen data <= Z.to_nat limit /\
    parse_token_response (response_with 200 ctype data true) (Z.of_nat (slen data)) = Some r.
Proof.
  intros S rd st ctype limit r Hh (data & ok & st' & Hr & He). exists data, st'. destruct ok; [|done]. split; [exact (reads_calls _ _ _ _ _ _ Hr)|].
  split; [pose proof (reads_bound _ _ _ _ _ _ Hh Hr); lia|]. unfold parse_token_response. rewrite (json_body_on _ _ _ _ (read_exact _ _ _ _)).
  cbn [response_with rs_ctype negb] in *. by destruct (json_content ctype).
Qed.
Lemma c100_introspection_any : forall S (rd : body_reader S) st ctype limit r, honest rd -> parse_introspection_response_on rd st ctype limit (Some r) ->
  exists data st', calls rd st data false st' /\ slen data <= Z.to_nat limit /\
    parse_introspection_response (response_with 200 ctype data true) (Z.of_nat (slen data)) = Some r.
Proof.
  intros S rd st ctype limit r Hh (data & ok & st' & Hr & He). exists data, st'. destruct ok; [|done]. split; [exact (reads_calls _ _ _ _ _ _ Hr)|].
  split; [pose proof (reads_bound _ _ _ _ _ _ Hh Hr); lia|]. unfold parse_introspection_response. rewrite (json_body_on _ _ _ _ (read_exact _ _ _ _)).
  cbn [response_with rs_ctype negb] in *. by destruct (json_content ctype).
Qed.
Lemma c100_error_any : forall S (rd : body_reader S) st status limit res, honest rd -> parse_request_error_on rd st status limit res ->
  exists data failed st', calls rd st data failed st' /\ slen data <= Z.to_nat limit /\
    res = parse_request_error (response_with status "" data true) (Z.of_nat (slen data)).
Proof.
  intros S rd st status limit res Hh (data & ok & st' & Hr & ->). exists data, (negb ok), st'. split; [exact (reads_calls _ _ _ _ _ _ Hr)|].
  split; [pose proof (reads_bound _ _ _ _ _ _ Hh Hr); lia|]. unfold parse_request_error. by rewrite read_exact.
Qed.

(** The readers of the examples. *)
Lemma drip_honest last after : honest (drip last after).
Proof. intros src n st' b e H. destruct n, src as [|a [|a' r]]; injection H as <- <- <-; cbn; lia. Qed.
Lemma drip_arrives (clean : bool) body : arrives (drip NoErr (if clean then EndOfFile else ReadError)) body body clean.
Proof.
  induction body as [|a r IH]; [apply arrives_end; intros [|n] Hn; [lia|by exists ""]|]. apply arrives_piece. intros [|n] Hn; [lia|].
  exists r, (String a ""), r, NoErr. split; [by destruct r|]. split; [done|]. split; [cbn; lia|]. split; [done|]. by left.
Qed.
Lemma drip_arrives_at_once body : arrives (drip EndOfFile EndOfFile) body body true.
Proof.
  induction body as [|a r IH]; [apply arrives_end; intros [|n] Hn; [lia|by exists ""]|]. apply arrives_piece. intros [|n] Hn; [lia|].
  destruct r as [|a' r].
  - exists "", (String a ""), "", EndOfFile. split; [done|]. split; [done|]. split; [cbn; lia|]. split; [done|]. by right.
  - exists (String a' r), (String a ""), (String a' r), NoErr. split; [done|]. split; [done|]. split; [cbn; lia|]. split; [done|]. by left.
Qed.
Lemma drip_breaks after src limit data ok st' : src <> "" -> (Z.of_nat (slen src) <= limit)%Z ->
  reads_limited (drip ReadError after) src limit data ok st' -> ok = false.
Proof.
  intros Hs Hl (l & e & rest & Hr & _ & ->). revert limit l e Hl Hr. induction src as [|a src IH]; [done|]. intros limit l e Hl Hr. cbn [String.length] in Hl.
  inversion Hr as [n ? ? b ? Hn Hc He|n ? ? b ? ? ? Hn Hc Hrest]; subst; unfold limited in Hc; cbn [fst snd] in Hc; rewrite (proj2 (Z.leb_gt limit 0)) in Hc by lia;
    destruct (Nat.min n (Z.to_nat limit)) as [|m] eqn:E; try lia; destruct src as [|a' src]; cbn [drip] in Hc; inversion Hc; subst; try done.
  refine (IH _ _ _ _ _ Hrest); [done|]. cbn [String.length] in *. lia.
Qed.

(** How many calls. *)
Lemma c100_calls : forall S (rd : body_reader S) st limit k, advances rd -> keeps_on (limited rd) (st, limit) k -> k <= Z.to_nat limit.
Proof.
  intros S rd st0 limit0 k Ha H. remember (st0, limit0) as x eqn:E. revert st0 limit0 E.
  induction H as [x|n x x1 b k Hn Hr Hk IH]; intros st limit ->; [lia|]. unfold limited in Hr. cbn [fst snd] in Hr. destruct (Z.leb_spec limit 0); [done|].
  destruct (rd st (Nat.min n (Z.to_nat limit))) as [[st1 b'] e'] eqn:E'. injection Hr as <- <- ->. pose proof (Ha _ (Nat.min n (Z.to_nat limit)) _ _ ltac:(lia) E') as Hb.
  assert (0 < slen b') by (destruct b'; [done|cbn; lia]). pose proof (IH _ _ eq_refl). lia.
Qed.
Lemma advance_ends {S} (rd : body_reader S) : advances rd -> forall st limit, exists data ok st', reads_limited rd st limit data ok st'.
Proof.
  intros Ha. assert (H : forall k st limit, Z.to_nat limit <= k -> exists l e st', read_all (limited rd) (st, limit) l e st').
  { induction k as [|k IH]; intros st limit Hk; (destruct (Z.leb_spec limit 0) as [Hl|Hl];
      [eexists _, _, _; eapply (all_end _ 1); [lia| |]; [unfold limited; cbn [fst snd]; rewrite (proj2 (Z.leb_le limit 0) Hl); reflexivity|done]|]); [lia|].
    destruct (rd st 1) as [[st1 b] e] eqn:E.
    assert (Hc : limited rd (st, limit) 1 = ((st1, (limit - Z.of_nat (slen b))%Z), b, e)).
    { unfold limited; cbn [fst snd]; rewrite (proj2 (Z.leb_gt limit 0) Hl); replace (Nat.min 1 (Z.to_nat limit)) with 1 by lia; by rewrite E. }
    assert (He : e = NoErr \/ e <> NoErr) by (destruct e; [by left|by right|by right]). destruct He as [->|He].
    - pose proof (Ha _ _ _ _ Nat.lt_0_1 E). assert (0 < slen b) by (destruct b; [done|cbn; lia]).
      destruct (IH st1 (limit - Z.of_nat (slen b))%Z ltac:(lia)) as (l & e & st' & Hr). eexists _, _, _. eapply (all_more _ 1); [lia|exact Hc|exact Hr].
    - eexists _, _, _. eapply (all_end _ 1); [lia|exact Hc|done]. }
  intros st limit. destruct (H _ st limit (le_n _)) as (l & e & [st' rest] & Hr).
  by exists (String.concat "" l), (match e with ReadError => false | _ => true end), st', l, e, rest.
Qed.
Lemma c100_returns : forall S (rd : body_reader S) st ctype status limit, advances rd ->
  (exists res, parse_token_response_on rd st ctype limit res) /\ (exists res, parse_introspection_response_on rd st ctype limit res) /\
  (exists res, parse_request_error_on rd st status limit res).
Proof.
  intros S rd st ctype status limit Ha. destruct (advance_ends _ Ha st limit) as (data & ok & st' & Hr).
  repeat split; eexists; exists data, ok, st'; by split.
Qed.
Lemma stalls_limited x l e x' : (0 < snd x)%Z -> read_all (limited stalls) x l e x' -> False.
Proof.
  intros Hl H. induction H as [n x x' b e Hn Hr He|n x x1 b l e x2 Hn Hr Hk IH]; unfold limited in Hr; rewrite (proj2 (Z.leb_gt (snd x) 0) Hl) in Hr; cbn in Hr.
  - injection Hr as _ _ <-. done.
  - injection Hr as <- _. apply IH. cbn [snd]. lia.
Qed.
Lemma c100_stalls ctype limit : (0 < limit)%Z -> ~ exists res, parse_token_response_on stalls tt ctype limit res.
Proof. intros Hl (res & data & ok & st' & (l & e & rest & Hr & _) & _). exact (stalls_limited (tt, limit) _ _ _ Hl Hr). Qed.
Lemma drip_advances last after : after <> NoErr -> advances (drip last after).
Proof. intros Ha src n st' b Hn H. destruct n, src as [|a [|a' r]]; try lia; injection H; intros; subst; done. Qed.
