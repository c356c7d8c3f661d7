(** The concrete race of ConcurrentCases.v. *)
From Verif.Model Require Import Server History Concurrent Owner.
From Verif.Spec Require Import RequestSpec Cases ConcurrentSpec OwnerCases ConcurrentCases.
From Verif.Proof Require Import ConcurrentWp ConcurrentHandlers ConcurrentProofs ConcurrentMore OwnerCase.
#[local] Opaque handle parse_token one_by_one pick start.

Lemma race_statuses : map status_of (snd (one_by_one (after step1) (pick race [1; 2; 0]))) = [Some 200; None; Some 400]%Z.
Proof. vm_compute. reflexivity. Qed.
Lemma race_perm : Permutation [1; 2; 0] (seq 0 (length race)).
Proof. cbn. apply Permutation_sym. apply (Permutation_cons_append [1; 2] 0). Qed.

Lemma race_holds : exists m, holds m (after step1).
Proof. exact (holds_exists (after step1)). Qed.

Lemma race_case : exists m w v0 v1, holds m (after step1) /\ reaches (start m race) w /\
  all_ended w /\ wo_order w = [1; 2; 0] /\
  ended w 1 v1 /\ status_of v1 = Some 200%Z /\ ended w 2 None /\ ended w 0 v0 /\ status_of v0 = Some 400%Z.
Proof.
  destruct race_holds as [m Hm]. destruct (c53_every_order m (after step1) race [1; 2; 0] Hm race_perm) as (w & R & Ha & Ho).
  destruct (c53_linearizable m (after step1) race w Hm R Ha) as (_ & _ & Hr). rewrite Ho in Hr.
  destruct (Hr 0 1 eq_refl) as (v1 & Hv1 & He1). destruct (Hr 1 2 eq_refl) as (v2 & Hv2 & He2). destruct (Hr 2 0 eq_refl) as (v0 & Hv0 & He0).
  pose proof race_statuses as Hs. revert Hs Hv0 Hv1 Hv2. generalize (snd (one_by_one (after step1) (pick race [1; 2; 0]))). intros xs Hs Hv0 Hv1 Hv2.
  destruct xs as [|x1 [|x2 [|x0 [|? ?]]]]; cbn [map] in Hs; try discriminate Hs.
  injection Hs as Hs1 Hs2 Hs0. injection Hv1 as ->. injection Hv2 as ->. injection Hv0 as ->.
  exists m, w, v0, v1. split; [exact Hm|]. split; [exact R|]. split; [exact Ha|]. split; [exact Ho|].
  split; [exact He1|]. split; [exact Hs1|]. split; [|split; [exact He0|exact Hs0]].
  destruct v2 as [[w2|b w2|]|]; [discriminate Hs2|discriminate Hs2|discriminate Hs2|exact He2].
Qed.

(** The owner's race: the outcome depends on who comes first. *)
Lemma owner_race_first : map allowed (snd (one_by_one owner_server (pick owner_race [0; 2; 1]))) = [Some true; None; None].
Proof. vm_compute. reflexivity. Qed.
Lemma owner_race_last : map allowed (snd (one_by_one owner_server (pick owner_race [1; 0; 2]))) = [None; Some false; None].
Proof. vm_compute. reflexivity. Qed.
Lemma owner_race_case : exists m, owned owner_events owner_server /\ holds m owner_server /\
  (exists w v, reaches (start m owner_race) w /\ all_ended w /\ ended w 0 v /\ allowed v = Some true) /\
  (exists w v, reaches (start m owner_race) w /\ all_ended w /\ ended w 0 v /\ allowed v = Some false).
Proof.
  destruct (holds_exists owner_server) as [m Hm]. exists m. split; [exact owner_owned|]. split; [exact Hm|].
  split.
  - assert (Hp : Permutation [0; 2; 1] (seq 0 (length owner_race))) by (cbn; constructor; constructor).
    destruct (c53_every_order m owner_server owner_race _ Hm Hp) as (w & R & Ha & Ho).
    destruct (c53_linearizable m owner_server owner_race w Hm R Ha) as (_ & _ & Hr). rewrite Ho in Hr.
    destruct (Hr 0 0 eq_refl) as (v & Hv & He). exists w, v. split; [exact R|]. split; [exact Ha|]. split; [exact He|].
    pose proof owner_race_first as Hs. revert Hs Hv. generalize (snd (one_by_one owner_server (pick owner_race [0; 2; 1]))).
    intros xs Hs Hv. destruct xs as [|x xs]; [discriminate Hs|]. cbn [map] in Hs. injection Hs as Hs _. injection Hv as ->. exact Hs.
  - assert (Hp : Permutation [1; 0; 2] (seq 0 (length owner_race))) by (cbn; constructor).
    destruct (c53_every_order m owner_server owner_race _ Hm Hp) as (w & R & Ha & Ho).
    destruct (c53_linearizable m owner_server owner_race w Hm R Ha) as (_ & _ & Hr). rewrite Ho in Hr.
    destruct (Hr 1 0 eq_refl) as (v & Hv & He). exists w, v. split; [exact R|]. split; [exact Ha|]. split; [exact He|].
    pose proof owner_race_last as Hs. revert Hs Hv. generalize (snd (one_by_one owner_server (pick owner_race [1; 0; 2]))).
    intros xs Hs Hv. destruct xs as [|y [|x xs]]; [discriminate Hs|discriminate Hs|]. cbn [map] in Hs. injection Hs as _ Hs _.
    injection Hv as ->. exact Hs.
Qed.
