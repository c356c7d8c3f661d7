(** scope.go *)
From Verif.Model Require Export GoStr.

(** scope.go:9 [type Scope []string]. [None] is the nil slice, [Some l] a
    non-nil slice. *)
Definition scope := option (list string).

(** The elements of a [Scope]; ranging over the nil slice sees none. *)
Definition items (s : scope) : list string :=
  match s with Some l => l | None => [] end.

(** Does the trimmed item count (scope.go:24)? *)
Definition keep_item (i : string) : bool := negb (seqb i "").

(** scope.go:12-30 [ParseScope]. [append] on the nil slice only produces a
    non-nil slice when something is appended. *)
Definition parse_scope (str : string) : scope :=
  match List.filter keep_item (map trim_space (split " " str)) with
  | [] => None
  | l => Some l
  end.

(** scope.go:33-41 [Scope.Contains]. *)
Fixpoint contains_item (l : list string) (str : string) : bool :=
  match l with
  | [] => false
  | i :: r => if seqb i str then true else contains_item r str
  end.
(** scope.go:33-41 [Scope.Contains]. *)
Definition scope_contains (s : scope) (str : string) : bool := contains_item (items s) str.

(** scope.go:44-52 [Scope.Includes]. *)
Fixpoint includes_items (s : scope) (l : list string) : bool :=
  match l with
  | [] => true
  | i :: r => if negb (scope_contains s i) then false else includes_items s r
  end.
(** scope.go:44-52 [Scope.Includes]. *)
Definition scope_includes (s scope' : scope) : bool := includes_items s (items scope').

(** scope.go:55-57 [Scope.Empty]. *)
Definition scope_empty (s : scope) : bool := Nat.eqb (length (items s)) 0.

(** scope.go:60-62 [Scope.String]. *)
Definition scope_string (s : scope) : string := join " " (items s).
