(** What a user expects of the helpers for angles. *)
From Coq Require Import Reals.
From Verif Require Import Py RList S_Sphere.
Open Scope R_scope.

(** The angle between two vectors by their scalar product *)
Definition angle_between (a b : vec) : R :=
  acos (dot a b / (sqrt (dot a a) * sqrt (dot b b))).

(** The entry belonging to position [j]: a single entry belongs to all. *)
Definition pick {A} (l : list A) (j : nat) : option A :=
  match l with [x] => Some x | _ => nth_error l j end.

(** Vectors which point along the same line (or are zero) *)
Definition parallel (a b : vec) : Prop :=
  let '(x, y, z) := a in let '(x', y', z') := b in
  y * z' = z * y' /\ z * x' = x * z' /\ x * y' = y * x'.

(** Angles in radians from the given unit *)
Definition radians (is_degree : bool) (d : R) : R := if is_degree then PI * d / 180 else d.
