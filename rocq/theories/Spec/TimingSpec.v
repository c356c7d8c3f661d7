(** Where two strings differ. *)
From Verif.Model Require Export Hs256.

(** The first position at which the strings differ. *)
Definition first_difference (x y : string) (i : nat) : Prop :=
  (forall j, (j < i)%nat -> String.get j x = String.get j y) /\ String.get i x <> String.get i y.
