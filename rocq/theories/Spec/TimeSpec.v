(** What a user expects of expiry, in plain numbers. A clock reading has two
    parts: the calendar ([wall], nanoseconds since 1970) and the stopwatch
    ([mono], nanoseconds since the process started). *)
From Coq Require Import ZArith.
From Verif.Model Require Import Time.
Open Scope Z_scope.

(** Values an int64 can hold. *)
Definition int64 (x : Z) : Prop := -9223372036854775808 <= x <= 9223372036854775807.

(** The calendar shows a date from 1885-01-01 to 2157-03-15, for which Now keeps
    the stopwatch. In seconds since 1970: -2682288000 and 5907646592. *)
Definition modern (wall : Z) : Prop :=
  -2682288000 * 1000000000 <= wall < 5907646592 * 1000000000.

(** The calendar shows a date within a hundred billion years of 1970. *)
Definition calendar (wall : Z) : Prop :=
  -4000000000000000000 * 1000000000 <= wall <= 4000000000000000000 * 1000000000.

(** More than [life] has passed on the stopwatch from [mono1] to [mono2]. *)
Definition outlived (mono1 mono2 life : Z) : Prop := life < mono2 - mono1.

(** Nobody set the calendar between the two readings: it and the stopwatch went
    forward by the same amount. *)
Definition undisturbed (wall1 mono1 wall2 mono2 : Z) : Prop := wall2 - wall1 = mono2 - mono1.

(** A credential as server.go:248, 611 and 621 make it: [time.Now().Add(life)]. *)
Definition expiry (wall mono life : Z) : time := time_add (time_now wall mono) life.
(** server.go:108, 374, 417: [ExpiresAt.Before(time.Now())]. *)
Definition is_expired (expires_at : time) (wall mono : Z) : bool :=
  time_before expires_at (time_now wall mono).
(** server.go:562, 579: [ExpiresAt.Unix()]. *)
Definition reported (expires_at : time) : Z := time_unix expires_at.
