(** Concrete case for concurrent calls that do not concern each other. *)
From Verif.Model Require Import Server History Concurrent Owner.
From Verif.Spec Require Import RequestSpec ServerSpec Cases HistoryCases LocalSpec LocalCases ConcurrentSpec ConcurrentCases.
From Verif.Proof Require Import LocalProofs LocalCase ConcurrentWp ConcurrentHandlers ConcurrentProofs ConcurrentMore AnyOrder.

#[local] Opaque handle parse_token.

Lemma apart_status i c : apart_calls !! i = Some c -> status_of (snd (perform (after step2) c)) = Some 200%Z.
Proof. destruct i as [|[|i]]; intros [= <-]; vm_compute; reflexivity. Qed.
Lemma apart_ops : map op_of apart_calls = [Some local_refresh; Some local_password].
Proof. reflexivity. Qed.

Lemma apart_case : exists m w, holds m (after step2) /\ reaches (start m apart_calls) w /\ all_ended w /\
  wo_order w = [1; 0] /\ map op_of apart_calls = [Some local_refresh; Some local_password] /\
  (forall i c, apart_calls !! i = Some c -> exists v, ended w i v /\ status_of v = Some 200%Z).
Proof.
  pose proof apart_status as HS. pose proof apart_ops as HO. pose proof local_independent as HI. pose proof (independent_sym _ _ _ HI) as HI'.
  assert (HL : length apart_calls = 2) by reflexivity.
  revert HS HO HI HI' HL. generalize apart_calls, (after step2), local_refresh, local_password. intros calls s o1 o2 HS HO HI HI' HL.
  destruct (holds_exists s) as [m Hm]. destruct (c53_every_order m s calls [1; 0] Hm) as (w & HR & HA & HW).
  { rewrite HL. cbn. constructor. }
  exists m, w. split; [exact Hm|]. split; [exact HR|]. split; [exact HA|]. split; [exact HW|]. split; [exact HO|].
  destruct calls as [|c1 [|c2 [|]]]; try discriminate HL. cbn in HO. injection HO as E1 E2.
  destruct (c83_concurrent m s [c1; c2] w) as [HE _]; [| |exact Hm|exact HR|exact HA|].
  - intros c [<-|[<-|[]]]; congruence.
  - intros i j c d o o' Hne Hc Hd Ho Ho'. destruct i as [|[|i]], j as [|[|j]]; try done; cbn in Hc, Hd; injection Hc as <-; injection Hd as <-; congruence.
  - intros i c Hc. exists (snd (perform s c)). split; [exact (HE i c Hc)|exact (HS i c Hc)].
Qed.
