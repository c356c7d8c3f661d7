(** Package time of Go 1.16, as far as server.go uses it: Now, Time.Add,
    Time.Before, Time.Unix. *)
From Coq Require Import ZArith Bool.
Open Scope Z_scope.

(** time.Second in nanoseconds. *)
Definition giga : Z := 1000000000.
(** time.go: [minWall] = 1885-01-01 and the Unix epoch, in seconds since the
    year 1. *)
Definition wall_to_internal : Z := (1884 * 365 + 1884 / 4 - 1884 / 100 + 1884 / 400) * 86400.
Definition unix_to_internal : Z := (1969 * 365 + 1969 / 4 - 1969 / 100 + 1969 / 400) * 86400.
(** Bounds of int64. *)
Definition min64 : Z := -9223372036854775808.
Definition max64 : Z := 9223372036854775807.
(** Arithmetic on int64 wraps around. *)
Definition wrap64 (x : Z) : Z := (x - min64) mod 18446744073709551616 + min64.

(** time.go, type Time. With a monotonic reading ([hasMonotonic]) the seconds
    count from 1885 in 33 bits and [ext] is the reading; without, they are
    stored in [ext] and count from the year 1. Simplification: the fields packed
    into [wall] are separate, the location is left out. *)
Record time := {
  tm_mono : bool;
  tm_sec : Z;    (* meaningful if [tm_mono] *)
  tm_nsec : Z;   (* 0..999999999 *)
  tm_ext : Z
}.

(** time.go, [Time.sec]: seconds since the year 1. *)
Definition tm_seconds (t : time) : Z :=
  if tm_mono t then wall_to_internal + tm_sec t else tm_ext t.

(** time.go, [Time.stripMono]. *)
Definition strip_mono (t : time) : time :=
  if tm_mono t
  then {| tm_mono := false; tm_sec := 0; tm_nsec := tm_nsec t; tm_ext := tm_seconds t |}
  else t.

(** time.go, [Now]: the wall clock reads [wall] nanoseconds since 1970, the
    monotonic clock [mono] nanoseconds since the start of the process. *)
Definition time_now (wall mono : Z) : time :=
  let sec := wall / giga + unix_to_internal - wall_to_internal in
  if (0 <=? sec) && (sec <? 8589934592)
  then {| tm_mono := true; tm_sec := sec; tm_nsec := wall mod giga; tm_ext := mono |}
  else {| tm_mono := false; tm_sec := 0; tm_nsec := wall mod giga; tm_ext := sec + wall_to_internal |}.

(** time.go, [Time.addSec]. *)
Definition add_sec (t : time) (d : Z) : time :=
  if tm_mono t && (0 <=? tm_sec t + d) && (tm_sec t + d <=? 8589934591)
  then {| tm_mono := true; tm_sec := tm_sec t + d; tm_nsec := tm_nsec t; tm_ext := tm_ext t |}
  else
    let u := strip_mono t in
    let sum := wrap64 (tm_ext u + d) in
    {| tm_mono := false; tm_sec := 0; tm_nsec := tm_nsec u;
       tm_ext := if Bool.eqb (tm_ext u <? sum) (0 <? d) then sum
                 else if 0 <? d then max64 else - max64 |}.

(** time.go, [Time.Add]; [d] is an int64. *)
Definition time_add (t : time) (d : Z) : time :=
  let dsec := Z.quot d giga in
  let nsec := tm_nsec t + Z.rem d giga in
  let '(dsec, nsec) :=
    if giga <=? nsec then (dsec + 1, nsec - giga)
    else if nsec <? 0 then (dsec - 1, nsec + giga)
    else (dsec, nsec) in
  let u := add_sec {| tm_mono := tm_mono t; tm_sec := tm_sec t; tm_nsec := nsec; tm_ext := tm_ext t |} dsec in
  if tm_mono u then
    let te := wrap64 (tm_ext u + d) in
    if ((d <? 0) && (tm_ext u <? te)) || ((0 <? d) && (te <? tm_ext u))
    then strip_mono u
    else {| tm_mono := true; tm_sec := tm_sec u; tm_nsec := tm_nsec u; tm_ext := te |}
  else u.

(** time.go, [Time.Before]. *)
Definition time_before (t u : time) : bool :=
  if tm_mono t && tm_mono u then tm_ext t <? tm_ext u
  else (tm_seconds t <? tm_seconds u)
       || ((tm_seconds t =? tm_seconds u) && (tm_nsec t <? tm_nsec u)).

(** time.go, [Time.Unix]. *)
Definition time_unix (t : time) : Z := tm_seconds t - unix_to_internal.

(** The two clocks at an instant: the wall clock in nanoseconds since 1970 and the
    monotonic clock in nanoseconds since the start of the process. *)
Record clock := { ck_wall : Z; ck_mono : Z }.
(** time.Now(), called at that instant. *)
Definition now_at (c : clock) : time := time_now (ck_wall c) (ck_mono c).
