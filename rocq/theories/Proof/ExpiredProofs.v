(** Once expired, expired for good, told from the answers (C29). *)
From Verif.Model Require Import Server History.
From Verif.Spec Require Import ScopeSpec WireSpec BuilderSpec RequestSpec ServerSpec HistorySpec.
From Verif.Proof Require Import StrFacts ScopeProofs WireFacts WireProofs BuilderProofs ServerFacts ServerProofs HistoryProofs.

Lemma challenged_values now s r required e st ch w1 : authorize_decision now s r required = Denied e ->
  challenged new_rw e st ch -> authorize now s r required new_rw = Some (false, w1) ->
  header_values w1 "Www-Authenticate" = ["Bearer " +:+ ch].
Proof.
  intros Hd (w & h & Hw & Hs & _ & Hh & _) Ha. unfold authorize in Ha. rewrite Hd, Hw in Ha. injection Ha as <-.
  unfold header_values. rewrite Hs, Hh. done.
Qed.

Lemma told_expired now s r required w1 str sg : bearer r str -> names (server_secret s) str sg ->
  authorize now s r required new_rw = Some (false, w1) ->
  header_values w1 "Www-Authenticate" =
    ["Bearer error=" +:+ in_quotes "invalid_token" +:+ ", error_description=" +:+ in_quotes "expired token"] ->
  authorize_decision now s r required = Denied (InvalidToken "expired token").
Proof.
  intros Hb Hn Ha Hh. assert (HU : unsent new_rw) by done. destruct (c14_challenges new_rw HU) as (_ & Ht & _ & Hi).
  destruct (authorize_decision now s r required) eqn:D; [unfold authorize in Ha; by rewrite D in Ha| |unfold authorize in Ha; by rewrite D in Ha].
  assert (X := D). unfold authorize_decision in D. rewrite (proj1 (bearer_spec r str) Hb) in D.
  apply names_spec in Hn as (k & Hk & ->). unfold server_secret in Hk. rewrite Hk in D.
  destruct (sv_access s !! signature_string k) as [c|].
  - destruct (cd_expires_at c <? now)%Z; [by injection D as <-|]. destruct (negb (scope_includes (cd_scope c) required)) eqn:I; [|done].
    injection D as <-. exfalso.
    assert (Hne : items required <> []).
    { intros E. unfold scope_includes in I. rewrite E in I. discriminate I. }
    rewrite (challenged_values _ _ _ _ _ _ _ _ X (Hi _ Hne) Ha) in Hh. injection Hh as Hh. discriminate Hh.
  - injection D as <-. exfalso.
    assert (Hne : "unknown token" <> "") by done.
    rewrite (challenged_values _ _ _ _ _ _ _ _ X (Ht _ Hne) Ha) in Hh. vm_compute in Hh. discriminate Hh.
Qed.

Lemma c29_told_forever : forall now s r required w1 str sg l s' now' r' str' required' w,
  authorize now s r required new_rw = Some (false, w1) ->
  header_values w1 "Www-Authenticate" =
    ["Bearer error=" +:+ in_quotes "invalid_token" +:+ ", error_description=" +:+ in_quotes "expired token"] ->
  bearer r str -> names (server_secret s) str sg ->
  History.run s l s' -> (forall x, In x l -> ~ issues_access (server_secret s) x sg) -> (now <= now')%Z ->
  bearer r' str' -> names (server_secret s) str' sg ->
  ~ exists w', authorize now' s' r' required' w = Some (true, w').
Proof.
  intros now s r required w1 str sg l s' now' r' str' required' w Ha Hh Hb Hn.
  exact (c29_access_forever now s r required str sg l s' now' r' str' required' w (told_expired _ _ _ _ _ _ _ Hb Hn Ha Hh) Hb Hn).
Qed.
